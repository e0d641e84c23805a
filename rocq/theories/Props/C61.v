(** C61: diffs of views. *)
From Verif.Model Require Import ViewDiff.
From Verif.Spec Require Import Api Fixture Changes Orderly Uniqueness ViewDiffs Free.
From Verif.Proofs Require Import Replay ViewDiffs Witness PatchEdges FreeWitness.

(** The diff of a view reports, change by change and in order, the deleted keys
    of its source and the view's rows of the rows added to the source, whatever
    the parallelism and the batches are.  [served]: the transforms ask for
    columns there are. *)
Theorem C61_rows : ∀ (F : Type) (map_fn : F → row → list row) (keep_fn : F → row → bool)
    σ hid E E' n blocks (v : view F) a b batch batch' cs,
  reachable σ → 1 ≤ n →
  result σ hid (run_diff E' a b batch') = Some (Ok cs) → served map_fn keep_fn v (added_rows (changed_rows cs)) →
  ∃ out, result σ hid (run_view_diff map_fn keep_fn E n blocks v a b batch) = Some (Ok out)
    ∧ changed_rows out = changed_rows cs ≫= seen_change map_fn keep_fn v.
Proof. intros F. exact view_diff_rows. Qed.
Print Assumptions C61_rows.

(** It raises what the diff of the source raises. *)
Theorem C61_error : ∀ (F : Type) (map_fn : F → row → list row) (keep_fn : F → row → bool)
    σ hid E E' n blocks (v : view F) a b batch batch' e,
  reachable σ → 1 ≤ n →
  result σ hid (run_diff E' a b batch') = Some (Err e) →
  result σ hid (run_view_diff map_fn keep_fn E n blocks v a b batch) = Some (Err e).
Proof. intros F. exact view_diff_error. Qed.
Print Assumptions C61_error.

(** For a view that keeps the primary keys of its source, applying the diff to
    the view's rows of version [a] gives the view's rows of version [b]; under the
    conditions C24 has for the source. *)
Theorem C61_replay_partial : ∀ (F : Type) (map_fn : F → row → list row) (keep_fn : F → row → bool)
    σ hid h s m E E' n blocks (v : view F) a b batch batch' i j l cs out rows_a rows_b,
  keeping separate_op init σ → y_handles σ !! hid = Some h → schema_at σ hid = Some s → stored_meta (w_fs (y_world σ)) = Some m →
  1 ≤ n → keeps_keys map_fn keep_fn v (s_pks s) →
  named m a = Some i → named m b = Some j → path_to m i j l →
  (∀ k sn rows, k ∈ i :: l → md_snaps m !! k = Some sn → reads σ hid (Some (VId k)) rows →
     unique_keys (s_pks s) rows ∧ st_rows (sn_stats sn) = Z.of_nat (length rows)) →
  result σ hid (run_diff E' a b batch') = Some (Ok cs) → served map_fn keep_fn v (added_rows (changed_rows cs)) →
  result σ hid (run_view_diff map_fn keep_fn E n blocks v a b batch) = Some (Ok out) →
  reads σ hid (Some (VId i)) rows_a → reads σ hid (Some (VId j)) rows_b →
  apply_changes (s_pks s) (view_rows map_fn keep_fn v rows_a) out ≡ₚ view_rows map_fn keep_fn v rows_b.
Proof. intros F. exact view_diff_replays. Qed.
Print Assumptions C61_replay_partial.

(** In particular when the source is modified by inserts, upserts and deletes,
    local or distributed, that lose no rows. *)
Theorem C61_replay_keyed_partial : ∀ (F : Type) (map_fn : F → row → list row) (keep_fn : F → row → bool)
    σ hid h s m E E' n blocks (v : view F) a b batch batch' i j l cs out rows_a rows_b,
  orderly (fun s fs sn o => keyed_op s fs sn o ∧ careful_op s fs sn o) init σ →
  y_handles σ !! hid = Some h → schema_at σ hid = Some s → plain_keys s → stored_meta (w_fs (y_world σ)) = Some m →
  1 ≤ n → keeps_keys map_fn keep_fn v (s_pks s) →
  named m a = Some i → named m b = Some j → path_to m i j l →
  result σ hid (run_diff E' a b batch') = Some (Ok cs) → served map_fn keep_fn v (added_rows (changed_rows cs)) →
  result σ hid (run_view_diff map_fn keep_fn E n blocks v a b batch) = Some (Ok out) →
  reads σ hid (Some (VId i)) rows_a → reads σ hid (Some (VId j)) rows_b →
  apply_changes (s_pks s) (view_rows map_fn keep_fn v rows_a) out ≡ₚ view_rows map_fn keep_fn v rows_b.
Proof. intros F. exact view_diff_keyed. Qed.
Print Assumptions C61_replay_keyed_partial.

Definition C61_map (f : string) (r : row) : list row :=
  if decide (f = "plus") then
    [[("k", match row_look r "k" with Some (SNum z) => CVal (SNum (z + 10)) | _ => CNull end); ("v", default CNull (rget "v" r))]]
  else [[("k", default CNull (rget "k" r)); ("v", CVal (SStr f))]].
Definition C61_keep (f : string) (r : row) : bool := match row_look r "k" with Some (SNum z) => (5 <=? z)%Z | _ => false end.
Definition C61_data : view string := VData "left" MAIN (Schema (assign_field_ids ex_fields) ["k"] ["r"]).
Definition C61_flat : list afield := [AField "k" TInt64 None true; AField "v" TString None true].
Definition C61_view : view string :=
  VFilter (Udf "keep" (assign_field_ids C61_flat) [] None)
    (VMap (Udf "new" (assign_field_ids C61_flat) [] None) C61_data ["k"; "v"]) ["k"; "v"].
Definition C61_row (k : Z) (v : string) : row := [("k", CVal (SNum k)); ("v", CVal (SStr v))].
Definition C61_calls : list call :=
  [ex_create; CRun 0 ex_env ex_opts (OInsert MInsert (concat ex_rows));
   CRun 0 ex_env ex_large (OInsert MUpsert [ex_row 4 "x" "X"; ex_row 9 "y" "Y"]);
   CRun 0 ex_env ex_opts (ODelete (ex_cmp OpEq "k" (SNum 1)))].
Definition C61_sys : sys := ex_calls C61_calls.
Example C61_case : ∃ h s m cs out rows_a rows_b,
  (let? v := map_batches C61_data "new" C61_flat (Some ["k"; "v"]) None None in filter_view v "keep" None) = Ok C61_view
  ∧ orderly (fun s fs sn o => keyed_op s fs sn o ∧ careful_op s fs sn o) init C61_sys
  ∧ y_handles C61_sys !! 0 = Some h ∧ schema_at C61_sys 0 = Some s ∧ plain_keys s
  ∧ stored_meta (w_fs (y_world C61_sys)) = Some m ∧ path_to m 1 3 [2; 3]%Z
  ∧ keeps_keys C61_map C61_keep C61_view (s_pks s)
  ∧ result C61_sys 0 (run_diff ex_env (VId 1) (VId 3) None) = Some (Ok cs)
  ∧ served C61_map C61_keep C61_view (added_rows (changed_rows cs))
  ∧ result C61_sys 0 (run_view_diff C61_map C61_keep ex_env 2 true C61_view (VId 1) (VId 3) None) = Some (Ok out)
  ∧ changed_rows out = [(2%Z, ChDelete, [("k", CVal (SNum 4))]); (2%Z, ChAdd, C61_row 9 "new"); (3%Z, ChDelete, [("k", CVal (SNum 1))])]
  ∧ reads C61_sys 0 (Some (VId 1)) rows_a ∧ reads C61_sys 0 (Some (VId 3)) rows_b
  ∧ view_rows C61_map C61_keep C61_view rows_a = [C61_row 5 "new"]
  ∧ view_rows C61_map C61_keep C61_view rows_b = [C61_row 9 "new"; C61_row 5 "new"].
Proof.
  assert (Hr : reachable C61_sys) by (apply reach; calls).
  do 7 eexists. split; [computed|]. split; [unfold C61_sys; orderly_by ltac:(split; [keyed_tested|careful_tested])|].
  split; [computed|]. split; [computed|]. split; [apply plain_keys_tested; computed|]. split; [computed|].
  split; [apply (path_tested _ _ _ [3; 2]%Z [0]%Z); [computed|done]|].
  split.
  { intros r x Hx. apply elem_of_list_filter in Hx as [_ Hx]. apply elem_of_list_singleton in Hx as ->.
    transitivity [cell_scalar (default CNull (rget "k" r))]; [by vm_compute|]. cbn. unfold row_look. by destruct (rget "k" r). }
  split; [computed|]. split.
  { split; [split; [done|]|]; intros r c Hr' Hc; cbn in Hr'; repeat (apply elem_of_cons in Hr' as [->|Hr']; [|]); try by apply elem_of_nil in Hr'.
    all: repeat (apply elem_of_cons in Hc as [->|Hc]; [set_solver|]); by apply elem_of_nil in Hc. }
  split; [computed|]. split; [computed|]. split; [by reads_by_computing|]. split; [by reads_by_computing|]. split; computed.
Qed.

(** The full claim fails for a view that changes the key: deletions name the
    keys of the source.  Row 1 becomes row 11 of the view; after it is deleted
    the replayed view still has row 11. *)
Definition C61_plus : view string := VMap (Udf "plus" (assign_field_ids C61_flat) [] None) C61_data ["k"; "v"].
Definition C61_few : sys :=
  ex_calls [ex_create; ex_add [ex_row 1 "a" "A"; ex_row 2 "b" "B"]; CRun 0 ex_env ex_opts (ODelete (ex_cmp OpEq "k" (SNum 1)))].
Theorem C61_refuted_key : ∃ s out rows_a rows_b,
  map_batches C61_data "plus" C61_flat (Some ["k"; "v"]) None None = Ok C61_plus
  ∧ orderly careful_op init C61_few ∧ schema_at C61_few 0 = Some s
  ∧ result C61_few 0 (run_view_diff C61_map C61_keep ex_env 1 true C61_plus (VId 1) (VId 2) None) = Some (Ok out)
  ∧ reads C61_few 0 (Some (VId 1)) rows_a ∧ reads C61_few 0 (Some (VId 2)) rows_b
  ∧ view_rows C61_map C61_keep C61_plus rows_b = [C61_row 12 "b"]
  ∧ apply_changes (s_pks s) (view_rows C61_map C61_keep C61_plus rows_a) out = [C61_row 11 "a"; C61_row 12 "b"].
Proof.
  assert (Hr : reachable C61_few) by (apply reach; calls).
  do 4 eexists. split; [computed|]. split; [unfold C61_few; orderly_by careful_tested|]. split; [computed|]. split; [computed|].
  split; [by reads_by_computing|]. split; [by reads_by_computing|]. split; computed.
Qed.
Print Assumptions C61_refuted_key.
