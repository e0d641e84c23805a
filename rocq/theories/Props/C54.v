(** C54: the rows of a view have the columns of its schema. *)
From Verif.Model Require Import ViewRead.
From Verif.Spec Require Import Api Fixture ViewReads.
From Verif.Proofs Require Import ViewShape Witness.

(** They do when the functions of maps return rows of the schema given for them
    and filters read all the columns of their input.  (Missing: filters with
    [input_fields], where the claim fails.) *)
Theorem C54_columns_partial : ∀ (F : Type) (map_fn : F → row → list row) (keep_fn : F → row → bool)
    σ hid s E blocks flt ver ref b (v : view F) ts r,
  reachable σ → schema_at σ hid = Some s → shaped map_fn s v →
  result σ hid (run_view_read map_fn keep_fn E blocks v flt None ver ref b) = Some (Ok ts) →
  r ∈ concat ts → r.*1 ≡ₚ names_of (v_schema v).
Proof. intros F. exact view_read_columns. Qed.
Print Assumptions C54_columns_partial.

Definition C54_map (f : string) (r : row) : list row := [[("k", default CNull (rget "k" r)); ("w", CVal (SStr f))]].
Definition C54_keep (f : string) (r : row) : bool := true.
Definition C54_schema : schema := Schema (assign_field_ids ex_fields) ["k"] ["r"].
Definition C54_source : sys := ex_calls [ex_create; ex_add [ex_row 1 "a" "A"; ex_row 3 "c" "C"]].
Definition C54_output : list afield := [AField "k" TInt64 None true; AField "w" TString None true].
(** A map to columns [k] and [w] below a filter. *)
Example C54_case : ∃ v v',
  reachable C54_source ∧ schema_at C54_source 0 = Some C54_schema
  ∧ map_batches (VData "src" MAIN C54_schema) "new" C54_output (Some ["k"]) None None = Ok v
  ∧ filter_view v "keep" None = Ok v' ∧ shaped C54_map C54_schema v'
  ∧ result C54_source 0 (run_view_read C54_map C54_keep ex_env true v' None None None false None) 
    = Some (Ok [[[("k", CVal (SNum 1)); ("w", CVal (SStr "new"))]]; [[("k", CVal (SNum 3)); ("w", CVal (SStr "new"))]]]).
Proof.
  assert (reachable C54_source) by (apply reach; calls).
  do 2 eexists. split; [done|]. split; [computed|]. split; [computed|]. split; [computed|]. split.
  - split; [|done]. intros r x Hx. apply elem_of_list_singleton in Hx as ->. done.
  - computed.
Qed.

(** The full claim fails: a filter may read some of the columns, and then returns
    only those, while the schema of the view has all columns of its input.  A
    materialized view made of it cannot be refreshed. *)
Definition C54_few : view string := VFilter (Udf "keep" (s_fields C54_schema) ["r"] None) (VData "src" MAIN C54_schema) ["k"].
Definition C54_mv : sys := ex_calls [ex_create].
Definition C54_refresh : ST two (list job) := run_refresh C54_map C54_keep ex_env ex_large 2 true C54_few None None.
Theorem C54_refuted :
  reachable C54_source ∧ schema_at C54_source 0 = Some C54_schema
  ∧ filter_view (VData "src" MAIN C54_schema) "keep" (Some ["k"]) = Ok C54_few ∧ names_of (v_schema C54_few) = ["k"; "v"; "r"]
  ∧ result C54_source 0 (run_view_read C54_map C54_keep ex_env true C54_few None None None false None)
    = Some (Ok [[[("k", CVal (SNum 1))]]; [[("k", CVal (SNum 3))]]])
  ∧ result2 C54_source 0 C54_mv 0 C54_refresh = Some (Err (EOther "KeyError: column")).
Proof.
  assert (reachable C54_source) by (apply reach; calls).
  split; [done|]. split; [computed|]. split; [computed|]. split; [computed|]. split; computed.
Qed.
Print Assumptions C54_refuted.
