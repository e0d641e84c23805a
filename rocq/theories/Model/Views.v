(** Views over datasets and their logical plans: core/views.py,
    core/transform/plans.py, core/transform/udfs.py.  Joins cannot be
    materialized (core/transform/join.py raises NotImplementedError) and are
    not views here. *)
From Verif.Model Require Export Catalog.

Section views.
(** Functions that the user provides. *)
Context {F : Type}.

(** UserDefinedFn (plans.py:38-53) *)
Record udf := Udf { u_fn : F; u_schema : list afield; u_recs : list string; u_batch : option nat }.
(** Dataset (datasets.py:32-37) with the location and the current branch of its
    storage; MapTransform, FilterTransform (udfs.py:48-56). *)
Inductive view :=
| VData (location branch : string) (s : schema)
| VMap (u : udf) (input : view) (fields : list string)
| VFilter (u : udf) (input : view) (fields : list string).
(** schema, record_fields, primary_keys (datasets.py:62-73, udfs.py:58-60,
    125-131, 162-168) *)
Fixpoint v_schema (v : view) : list afield :=
  match v with VData _ _ s => s_fields s | VMap u _ _ => u_schema u | VFilter _ i _ => v_schema i end.
Fixpoint v_recs (v : view) : list string :=
  match v with VData _ _ s => s_recs s | VMap u _ _ => u_recs u | VFilter _ i _ => v_recs i end.
Fixpoint v_pks (v : view) : list string :=
  match v with VData _ _ s => s_pks s | VMap _ i _ | VFilter _ i _ => v_pks i end.

(** _default_or_validate_input_fields (views.py:226-244) *)
Definition input_fields_of (v : view) (o : option (list string)) : res (list string) :=
  match o with
  | None => Ok (names_of (v_schema v))
  | Some l =>
      if forallb (fun k => bool_decide (k ∈ l)) (v_pks v) then
        if forallb (fun n => bool_decide (n ∈ names_of (v_schema v))) l then Ok l else Err (EUser UInput)
      else Err (EUser UInput)
  end.
(** map_batches (126-159) *)
Definition map_batches (v : view) (fn : F) (output : list afield) (fields : option (list string))
    (recs : option (list string)) (batch : option nat) : res view :=
  let output' := assign_field_ids output in
  let? l := input_fields_of v fields in
  let recs' := default [] recs in
  let? _ := validate_logical_schema output' (v_pks v) recs' in
  Ok (VMap (Udf fn output' recs' batch) v l).
(** filter (161-181) *)
Definition filter_view (v : view) (fn : F) (fields : option (list string)) : res view :=
  let? l := input_fields_of v fields in
  Ok (VFilter (Udf fn (v_schema v) (v_recs v) None) v l).

(** Relations of the plan (udfs.py:133-142, 170-178, datasets.py:114-121);
    arguments are field IDs. *)
Inductive rel :=
| RRead (names : list string)
| RProject (input : rel) (fn_ref : Z) (args : list Z)
| RFilter (input : rel) (fn_ref : Z) (args : list Z)
| ROther.
(** SimpleExtensionURI (anchor, uri); ExtensionFunction (uri reference, anchor,
    name). *)
Record plan := Plan { pl_uris : list (Z * string); pl_exts : list (Z * Z * string); pl_root : rel }.

Definition SIMPLE_UDF_URI : string := "urn:space:substrait_simple_extension_function".
(** LogicalPlanBuilder (plans.py:69-122).  [b_draws] counts the random IDs
    drawn so far. *)
Record builder := Builder {
  b_uris : list (Z * string); b_exts : list (Z * Z * string); b_udfs : gmap string udf;
  b_uri_anchor : Z; b_fn_anchor : Z; b_draws : nat }.
Definition builder0 : builder := Builder [] [] ∅ 1 1 0.

Section building.
(** The sequence of random IDs (core/utils/uuids.py:25-27). *)
Context (rand : nat → string).
Definition udf_name (i : nat) : string := "udf_" +:+ rand i.
(** new_udf_name (108-117) *)
Fixpoint draw_name (tries : nat) (used : gmap string udf) (i : nat) : res (string * nat) :=
  match tries with
  | 0 => Err (ERuntime "Failed to generate an unused UDF name")
  | S k => if decide (is_Some (used !! udf_name i)) then draw_name k used (S i) else Ok (udf_name i, S i)
  end.
(** _add_udf (udfs.py:66-89) *)
Definition add_udf (b : builder) (u : udf) : res (Z * builder) :=
  let? (name, draws) := draw_name 10 (b_udfs b) (b_draws b) in
  Ok (b_fn_anchor b,
      Builder (b_uris b ++ [(b_uri_anchor b, SIMPLE_UDF_URI)])
        (b_exts b ++ [(b_uri_anchor b, b_fn_anchor b, name)])
        (<[name := u]> (b_udfs b)) (b_uri_anchor b + 1) (b_fn_anchor b + 1) draws).
(** _arguments (91-100) *)
Definition arguments (input : view) (fields : list string) : res (list Z) :=
  match fields with
  | [] => Err (ERuntime "View's input fields are empty.")
  | _ => rmapM (fun n => of_opt (EOther "KeyError: field") (field_ids_of (v_schema input) !! n)) fields
  end.
(** to_relation (datasets.py:114-121, udfs.py:133-142, 170-178) *)
Fixpoint to_relation (v : view) (b : builder) : res (rel * builder) :=
  match v with
  | VData location _ _ => Ok (RRead [location], b)
  | VMap u i fields =>
      let? (r, b1) := to_relation i b in
      let? (a, b2) := add_udf b1 u in
      let? args := arguments i fields in
      Ok (RProject r a args, b2)
  | VFilter u i fields =>
      let? (r, b1) := to_relation i b in
      let? (a, b2) := add_udf b1 u in
      let? args := arguments i fields in
      Ok (RFilter r a args, b2)
  end.
Definition make_plan (v : view) : res (plan * gmap string udf) :=
  let? (r, b) := to_relation v builder0 in
  Ok (Plan (b_uris b) (b_exts b) r, b_udfs b).
End building.

(** The files that hold pickled functions, by place. *)
Notation udf_files := (gmap (list string) udf).
(** The logical plan in the metadata of a materialized view: the plan, and the
    path of each function relative to the location. *)
Record stored_plan := StoredPlan { sp_plan : plan; sp_udfs : gmap string string }.

(** MaterializedView.create (views.py:294-304), before Storage.create *)
Definition udf_path (location name : string) : string :=
  join (join (metadata_dir location) "udfs") (name +:+ ".pkl").
Definition dump_udfs (cwd location : string) (udfs : gmap string udf) (files : udf_files)
    : res (gmap string string * udf_files) :=
  rfoldM (fun '(paths, files) '(name, u) =>
      let full := udf_path location name in
      let? short := relpath cwd full location in
      Ok (<[name := short]> paths, <[place cwd full := u]> files)) (∅, files) (map_to_list udfs).
(** View.materialize (113-124) and the rest of create (305-308): what it does to the storages, the function files
    written, and what it stores.  The plan is part of the storage's metadata,
    which every later metadata file copies (storage.py:282, 310, 326); it is
    kept apart here. *)
Definition materialize (cwd : string) (rand : nat → string) (hid : nat) (location : string) (v : view)
    (D : disk) (files : udf_files) : disk * udf_files * res stored_plan :=
  match make_plan rand v with
  | Err e => (D, files, Err e)
  | Ok (pl, udfs) =>
      match dump_udfs cwd location udfs files with
      | Err e => (D, files, Err e)
      | Ok (paths, files') =>
          let c := CCreate hid (v_schema v) (v_pks v) (v_recs v) in
          (act cwd D location c, files',
           rmap (fun _ => StoredPlan pl paths)
             (create (v_schema v) (v_pks v) (v_recs v) (y_world (storage_at D (place cwd location)))).2)
      end
  end.

(** field_id_to_name_dict (core/schema/arrow.py:167-169) *)
Definition names_by_id (fs : list afield) : gmap Z string :=
  foldl (fun m f => <[field_id f := f_name f]> m) ∅ fs.
(** _CompactPlan.from_plan (udfs.py:202-213) *)
Definition fn_dict (exts : list (Z * Z * string)) : gmap Z (Z * string) :=
  foldl (fun m '(u, a, n) => <[a := (u, n)]> m) ∅ exts.
Definition uri_dict (uris : list (Z * string)) : gmap Z string :=
  foldl (fun m '(a, u) => <[a := u]> m) ∅ uris.

Section loading.
Context (cwd location : string) (D : disk) (files : udf_files) (sp : stored_plan).
(** Dataset.load (datasets.py:57-60) *)
Definition load_dataset (loc : string) : res view :=
  rmap (fun h => VData loc (h_branch h) (md_schema (h_meta h)))
    (load (y_world (storage_at D (place cwd loc)))).2.
(** _load_udf up to the input (udfs.py:216-236).  A name missing in the
    protobuf map gives the empty path. *)
Definition load_fn (fn_ref : Z) : res udf :=
  let? (uref, name) := of_opt (EOther "KeyError: function") (fn_dict (pl_exts (sp_plan sp)) !! fn_ref) in
  let? uri := of_opt (EOther "KeyError: URI") (uri_dict (pl_uris (sp_plan sp)) !! uref) in
  if decide (uri = SIMPLE_UDF_URI) then
    of_opt (EOther "FileNotFoundError") (files !! place cwd (join location (default "" (sp_udfs sp !! name))))
  else Err (EOther "LogicalPlanError: URI").
(** 238-244 *)
Definition load_fields (input : view) (args : list Z) : res (list string) :=
  rmapM (fun i => of_opt (EOther "KeyError: field ID") (names_by_id (v_schema input) !! i)) args.
(** _load_view (256-266) *)
Fixpoint load_rel (r : rel) : res view :=
  match r with
  | RRead [] => Err (EOther "IndexError")
  | RRead (loc :: _) => load_dataset loc
  | RProject i f args =>
      let? u := load_fn f in let? v := load_rel i in let? l := load_fields v args in Ok (VMap u v l)
  | RFilter i f args =>
      let? u := load_fn f in let? v := load_rel i in let? l := load_fields v args in Ok (VFilter u v l)
  | ROther => Err (EOther "LogicalPlanError: relation")
  end.
(** load_view (249-253) *)
Definition load_view : res view := load_rel (pl_root (sp_plan sp)).
End loading.
End views.
Global Arguments udf : clear implicits.
Global Arguments view : clear implicits.
Global Arguments builder : clear implicits.
Notation udf_files F := (gmap (list string) (udf F)).
