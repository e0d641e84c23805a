(** C53: a filter given to the read of a view. *)
From Verif.Model Require Import ViewRead.
From Verif.Spec Require Import Api Fixture Keys ViewReads.
From Verif.Proofs Require Import ViewShape Witness.

(** The rows returned are those of the view that match, if the filter says the
    same about every row of the dataset and the rows the view makes of it (the
    view keeps the columns the filter mentions).  The other hypotheses are those
    of filtered reads of datasets.  (Missing: other views, where the claim
    fails.) *)
Theorem C53_filter_partial : ∀ (F : Type) (map_fn : F → row → list row) (keep_fn : F → row → bool)
    σ hid s E blocks ver b (v : view F) e rows,
  reachable σ → schema_at σ hid = Some s → reads σ hid ver rows →
  safe_filter s e → buildable s e → no_nan_keys (s_pks s) rows →
  well_fed map_fn keep_fn s false v rows → passes map_fn keep_fn (in_read_order s false v) e →
  ∃ ts, result σ hid (run_view_read map_fn keep_fn E blocks v (Some e) None ver false b) = Some (Ok ts)
    ∧ concat ts = filter (fun r => matches e r = true) (view_rows map_fn keep_fn (in_read_order s false v) rows).
Proof. intros F. exact view_read_filtered. Qed.
Print Assumptions C53_filter_partial.

(** A map that sets column [v] and keeps the key. *)
Definition C53_map (f : string) (r : row) : list row :=
  [[("k", default CNull (rget "k" r)); ("v", CVal (SStr f)); ("r", default CNull (rget "r" r))]].
Definition C53_keep (f : string) (r : row) : bool := true.
Definition C53_view : view string :=
  VMap (Udf "new" [] [] None) (VData "src" MAIN (Schema (assign_field_ids ex_fields) ["k"] ["r"])) ["k"; "v"; "r"].
Definition C53_source : sys := ex_calls [ex_create; ex_add [ex_row 1 "a" "A"; ex_row 3 "c" "C"]; ex_add [ex_row 4 "d" "D"]].
(** A filter on the key. *)
Example C53_case : ∃ s rows,
  reachable C53_source ∧ schema_at C53_source 0 = Some s ∧ reads C53_source 0 None rows
  ∧ safe_filter s (ex_cmp OpGt "k" (SNum 1)) ∧ buildable s (ex_cmp OpGt "k" (SNum 1)) ∧ no_nan_keys (s_pks s) rows
  ∧ well_fed C53_map C53_keep s false C53_view rows ∧ passes C53_map C53_keep (in_read_order s false C53_view) (ex_cmp OpGt "k" (SNum 1))
  ∧ result C53_source 0 (run_view_read C53_map C53_keep ex_env true C53_view (Some (ex_cmp OpGt "k" (SNum 1))) None None false None)
    = Some (Ok [[ex_row 3 "new" "C"]; [ex_row 4 "new" "D"]]).
Proof.
  assert (reachable C53_source) by (apply reach; calls).
  do 2 eexists. split; [done|]. split; [computed|]. split; [by reads_by_computing|]. split; [safe|]. split; [can_build|].
  split; [apply proper_no_nan; proper|]. split; [|split; [|computed]].
  - split; [done|]. intros n Hn. cbn. repeat (apply elem_of_cons in Hn as [->|Hn]; [set_solver|]). by apply elem_of_nil in Hn.
  - intros r x Hx. change (in_read_order _ _ _) with C53_view in Hx. apply elem_of_list_singleton in Hx as ->.
    unfold matches. cbn. unfold row_look at 1. cbn. unfold row_look. by destruct (rget "k" r).
Qed.

(** The full claim fails: the filter is given to the read of the dataset, below
    the transforms.  Every row of the view has [v = "new"]; filtering by that
    returns nothing, and filtering by [v = "c"] returns a row that does not
    match. *)
Theorem C53_refuted : ∃ s rows,
  reachable C53_source ∧ schema_at C53_source 0 = Some s ∧ reads C53_source 0 None rows
  ∧ safe_filter s (ex_cmp OpEq "v" (SStr "new")) ∧ buildable s (ex_cmp OpEq "v" (SStr "new")) ∧ no_nan_keys (s_pks s) rows
  ∧ view_rows C53_map C53_keep C53_view rows = [ex_row 1 "new" "A"; ex_row 3 "new" "C"; ex_row 4 "new" "D"]
  ∧ result C53_source 0 (run_view_read C53_map C53_keep ex_env true C53_view (Some (ex_cmp OpEq "v" (SStr "new"))) None None false None)
    = Some (Ok [])
  ∧ result C53_source 0 (run_view_read C53_map C53_keep ex_env true C53_view (Some (ex_cmp OpEq "v" (SStr "c"))) None None false None)
    = Some (Ok [[ex_row 3 "new" "C"]]).
Proof.
  assert (reachable C53_source) by (apply reach; calls).
  do 2 eexists. split; [done|]. split; [computed|]. split; [by reads_by_computing|]. split; [safe|]. split; [can_build|].
  split; [apply proper_no_nan; proper|]. split; [computed|]. split; computed.
Qed.
Print Assumptions C53_refuted.
