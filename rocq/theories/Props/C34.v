(** C34: refreshing a materialized view.  The source is one storage, the
    materialized view another.  A view is a tree of row-wise maps and filters
    over a dataset; [map_fn] and [keep_fn] say what the user's functions compute;
    [n] is the parallelism of Ray, [blocks] whether it splits files. *)
From Verif.Model Require Import Refresh.
From Verif.Spec Require Import Api Fixture Changes Orderly Uniqueness Refreshing Free.
From Verif.Proofs Require Import Replay RefreshSource Refreshed Witness RefreshWitness PatchEdges FreeWitness.

(** If the materialized view holds the view of source version [i], where [i] is
    its current snapshot ID, then after a refresh to version [j] it holds the
    view of version [j].  Along the way from [i] to [j] keys of the source are
    unique and not null, and no delete loses rows (see C06), neither on the source
    nor on the materialized view: recorded row counts are exact.  (Missing: that
    the materialized view's snapshot ID stays that of the source, see
    [C34_same_id_partial] and the refutations.)
    [keeping separate_op init σs]: the source is reached by local and
    distributed operations of concurrent handles, with crashes; nobody removes
    branches, and distributed deletes leave the right rows (see C32).
    [mv_reachable σ]: the storage of the materialized view is
    reached by any calls and refreshes. *)
Theorem C34_refresh_partial : ∀ (F : Type) (map_fn : F → row → list row) (keep_fn : F → row → bool)
    E O n blocks (v : view F) target batch σs hid_s hs ss ms σ hid h sm m i j l jobs rows_i mv rows_j,
  let refresh := run_refresh map_fn keep_fn E O n blocks v target batch in
  let σ' := (after2 σs hid_s σ hid refresh).2 in
  keeping separate_op init σs → y_handles σs !! hid_s = Some hs → schema_at σs hid_s = Some ss → stored_meta (w_fs (y_world σs)) = Some ms →
  mv_reachable σ → y_handles σ !! hid = Some h → schema_at σ hid = Some sm → stored_meta (w_fs (y_world σ)) = Some m →
  h_meta h = m → h_branch h = MAIN → 1 ≤ n →
  s_pks sm = s_pks ss → plain_keys sm → keeps_keys map_fn keep_fn v (s_pks ss) →
  md_current m = i → refresh_target hs target = Some j → path_to ms i j l →
  (∀ k sn rows, k ∈ i :: l → md_snaps ms !! k = Some sn → reads σs hid_s (Some (VId k)) rows →
     unique_keys (s_pks ss) rows ∧ proper_keys (s_pks ss) rows ∧ st_rows (sn_stats sn) = Z.of_nat (length rows)) →
  reads σs hid_s (Some (VId i)) rows_i → reads σ hid None mv → mv ≡ₚ show sm <$> view_rows map_fn keep_fn v rows_i →
  result2 σs hid_s σ hid refresh = Some (Ok jobs) → JFailed ∉ jobs →
  (∀ m' k sn rows, stored_meta (w_fs (y_world σ')) = Some m' → (i ≤ k)%Z → md_snaps m' !! k = Some sn →
     reads σ' hid (Some (VId k)) rows → st_rows (sn_stats sn) = Z.of_nat (length rows)) →
  reads σs hid_s (Some (VId j)) rows_j →
  ∃ new, reads σ' hid None new ∧ new ≡ₚ show sm <$> view_rows map_fn keep_fn v rows_j.
Proof. intros F. exact refreshed. Qed.
Print Assumptions C34_refresh_partial.

(** When every transaction of the refresh succeeds, each moves the snapshot ID of
    the materialized view by one (its branches and tags being older, no earlier
    commit of the handle having failed).  So if every snapshot of the source up
    to [j] has changes and the IDs of the source have no gaps, the materialized
    view arrives at ID [j]: the hypothesis of [C34_refresh_partial] holds again
    for the next refresh. *)
Theorem C34_same_id_partial : ∀ (F : Type) (map_fn : F → row → list row) (keep_fn : F → row → bool)
    E O n blocks (v : view F) target batch σs hid_s hs ss ms σ hid h sm m m' i j l jobs,
  let refresh := run_refresh map_fn keep_fn E O n blocks v target batch in
  reachable σs → y_handles σs !! hid_s = Some hs → schema_at σs hid_s = Some ss → stored_meta (w_fs (y_world σs)) = Some ms →
  mv_reachable σ → y_handles σ !! hid = Some h → schema_at σ hid = Some sm → stored_meta (w_fs (y_world σ)) = Some m →
  h_meta h = m → h_branch h = MAIN → 1 ≤ n →
  md_current m = i → (h_max h ≤ i)%Z → (∀ x r, md_refs m !! x = Some r → (rf_id r ≤ i)%Z) →
  refresh_target hs target = Some j → path_to ms i j l →
  result2 σs hid_s σ hid refresh = Some (Ok jobs) → Forall (fun r => ∃ st, r = JSucceeded st) jobs →
  stored_meta (w_fs (y_world (after2 σs hid_s σ hid refresh).2)) = Some m' →
  md_current m' = (i + Z.of_nat (length jobs))%Z.
Proof. intros F. exact refreshed_id. Qed.
Print Assumptions C34_same_id_partial.

(** Refreshing to a version the materialized view already has changes nothing,
    neither the source nor the materialized view; but it raises UserInputError. *)
Theorem C34_refresh_again : ∀ (F : Type) (map_fn : F → row → list row) (keep_fn : F → row → bool)
    E O n blocks (v : view F) target batch σs hid_s hs σ hid h i j,
  let refresh := run_refresh map_fn keep_fn E O n blocks v target batch in
  reachable σs → y_handles σs !! hid_s = Some hs → mv_reachable σ → y_handles σ !! hid = Some h → h_branch h = MAIN →
  md_current (h_meta h) = i → refresh_target hs target = Some j → (j ≤ i)%Z → (j ≤ md_current (h_meta hs))%Z →
  result2 σs hid_s σ hid refresh = Some (Err (EUser UInput))
  ∧ y_world (after2 σs hid_s σ hid refresh).1 = y_world σs ∧ y_world (after2 σs hid_s σ hid refresh).2 = y_world σ.
Proof. intros F. exact refreshed_already. Qed.
Print Assumptions C34_refresh_again.

(** A refresh, successful or not, never writes to the source. *)
Theorem C34_source_untouched : ∀ (F : Type) (map_fn : F → row → list row) (keep_fn : F → row → bool)
    E O n blocks (v : view F) target batch σs hid_s σ hid,
  reachable σs → mv_reachable σ → 1 ≤ n →
  y_world (after2 σs hid_s σ hid (run_refresh map_fn keep_fn E O n blocks v target batch)).1 = y_world σs.
Proof. intros F. exact source_untouched. Qed.
Print Assumptions C34_source_untouched.

(** A view that sets column [v] and keeps the rows with a large enough key. *)
Definition C34_map (f : string) (r : row) : list row :=
  [[("k", default CNull (rget "k" r)); ("v", CVal (SStr f)); ("r", default CNull (rget "r" r))]].
Definition C34_keep (f : string) (r : row) : bool := match row_look r "k" with Some (SNum z) => (3 <=? z)%Z | _ => false end.
Definition C34_view : view string :=
  VFilter (Udf "keep" [] [] None)
    (VMap (Udf "new" [] [] None) (VData "src" MAIN (Schema (assign_field_ids ex_fields) ["k"] ["r"])) ["k"; "v"; "r"]) ["k"; "v"; "r"].
Definition C34_refresh : ST two (list job) := run_refresh C34_map C34_keep ex_env ex_large 2 true C34_view None None.
Lemma C34_keys : keeps_keys C34_map C34_keep C34_view ["k"].
Proof.
  intros r x Hx. unfold C34_view in Hx. cbn [view_rows u_fn] in Hx. apply elem_of_list_filter in Hx as [_ Hx]. apply elem_of_list_singleton in Hx as ->.
  unfold key_of, row_look. cbn. by destruct (rget "k" r).
Qed.
Definition C34_source : sys := ex_calls [ex_create; ex_add [ex_row 1 "a" "A"; ex_row 3 "c" "C"; ex_row 4 "d" "D"];
  CRun 0 ex_env ex_large (ODelete (ex_cmp OpEq "k" (SNum 3)));
  CRun 0 ex_env ex_large (OInsert MUpsert [ex_row 4 "x" "X"; ex_row 9 "y" "Y"])].
Definition C34_mv : sys := ex_calls [ex_create].
Definition C34_after : sys := (after2 C34_source 0 C34_mv 0 C34_refresh).2.
Example C34_case : ∃ hs ss ms h sm m m' jobs rows_j,
  keeping separate_op init C34_source ∧ y_handles C34_source !! 0 = Some hs ∧ schema_at C34_source 0 = Some ss
  ∧ stored_meta (w_fs (y_world C34_source)) = Some ms
  ∧ mv_reachable C34_mv ∧ y_handles C34_mv !! 0 = Some h ∧ schema_at C34_mv 0 = Some sm ∧ stored_meta (w_fs (y_world C34_mv)) = Some m
  ∧ h_meta h = m ∧ h_branch h = MAIN ∧ s_pks sm = s_pks ss ∧ plain_keys sm ∧ keeps_keys C34_map C34_keep C34_view (s_pks ss)
  ∧ md_current m = 0%Z ∧ h_max h = 0%Z ∧ md_refs m = ∅ ∧ refresh_target hs None = Some 3%Z ∧ path_to ms 0 3 [1; 2; 3]%Z
  ∧ (∀ k sn rows, k ∈ [0; 1; 2; 3]%Z → md_snaps ms !! k = Some sn → reads C34_source 0 (Some (VId k)) rows →
       unique_keys (s_pks ss) rows ∧ proper_keys (s_pks ss) rows ∧ st_rows (sn_stats sn) = Z.of_nat (length rows))
  ∧ reads C34_source 0 (Some (VId 0)) [] ∧ reads C34_mv 0 None []
  ∧ result2 C34_source 0 C34_mv 0 C34_refresh = Some (Ok jobs) ∧ Forall (fun r => ∃ st, r = JSucceeded st) jobs ∧ length jobs = 3
  ∧ stored_meta (w_fs (y_world C34_after)) = Some m'
  ∧ (∀ k sn rows, (0 ≤ k)%Z → md_snaps m' !! k = Some sn → reads C34_after 0 (Some (VId k)) rows →
       st_rows (sn_stats sn) = Z.of_nat (length rows))
  ∧ reads C34_source 0 (Some (VId 3)) rows_j
  ∧ reads C34_after 0 None [ex_row 4 "new" "X"; ex_row 9 "new" "Y"]
  ∧ (show sm <$> view_rows C34_map C34_keep C34_view rows_j) = [ex_row 4 "new" "X"; ex_row 9 "new" "Y"].
Proof.
  assert (reachable C34_source) by (apply reach; calls).
  assert (reachable C34_mv) by (apply reach; calls).
  assert (mv_reachable C34_mv) by (by apply mv_from_reachable).
  assert (mv_reachable C34_after) by (apply MvRefresh; [done|done|lia]).
  do 9 eexists. split; [keeping_by ltac:(exact I)|]. split; [computed|]. split; [computed|]. split; [computed|]. split; [done|].
  split; [computed|]. split; [computed|]. split; [computed|]. split; [computed|]. split; [computed|]. split; [computed|].
  split; [apply plain_keys_tested; computed|]. split; [apply C34_keys|]. split; [computed|]. split; [computed|]. split; [computed|].
  split; [computed|]. split; [apply (path_tested _ _ _ [3; 2; 1]%Z []%Z); [computed|done]|].
  split; [apply good_versions_tested; computed|].
  split; [by reads_by_computing|]. split; [by reads_by_computing|]. split; [computed|].
  split; [repeat (constructor; [by eexists|]); constructor|]. split; [done|]. split; [computed|].
  split; [intros k sn rows _; apply counts_tested; computed|].
  split; [by reads_by_computing|]. split; [by mv_reads_by_computing|]. computed.
Qed.

(** Refreshing once more. *)
Example C34_case_again : ∃ hs h,
  reachable C34_source ∧ y_handles C34_source !! 0 = Some hs ∧ mv_reachable C34_after ∧ y_handles C34_after !! 0 = Some h
  ∧ h_branch h = MAIN ∧ md_current (h_meta h) = 3%Z ∧ refresh_target hs None = Some 3%Z ∧ md_current (h_meta hs) = 3%Z.
Proof.
  assert (reachable C34_source) by (apply reach; calls).
  assert (mv_reachable C34_mv) by (apply mv_from_reachable, reach; calls).
  assert (mv_reachable C34_after) by (apply MvRefresh; [done|done|lia]).
  do 2 eexists. split; [done|]. split; [computed|]. split; [done|]. split; [computed|].
  split; [computed|]. split; [computed|]. split; computed.
Qed.

(** The full claim fails.  When the view has no rows for a snapshot of the
    source, that snapshot's transaction is SKIPPED and the materialized view's
    snapshot ID falls behind the source's, where the next refresh starts.
    Refreshing again, without any change of the source, adds the rows again. *)
Definition C34_skip_source : sys := ex_calls [ex_create; ex_add [ex_row 1 "a" "A"]; ex_add [ex_row 3 "c" "C"]].
Definition C34_once : sys := (after2 C34_skip_source 0 C34_mv 0 C34_refresh).2.
Definition C34_twice : sys := (after2 C34_skip_source 0 C34_once 0 C34_refresh).2.
Theorem C34_refuted_skipped : ∃ st st',
  orderly separate_op init C34_skip_source ∧ mv_reachable C34_once
  ∧ result2 C34_skip_source 0 C34_mv 0 C34_refresh = Some (Ok [JSkipped; JSucceeded st])
  ∧ reads C34_once 0 None [ex_row 3 "new" "C"]
  ∧ result2 C34_skip_source 0 C34_once 0 C34_refresh = Some (Ok [JSucceeded st'])
  ∧ reads C34_twice 0 None [ex_row 3 "new" "C"; ex_row 3 "new" "C"].
Proof.
  assert (reachable C34_skip_source) by (apply reach; calls).
  assert (reachable C34_mv) by (apply reach; calls).
  assert (mv_reachable C34_mv) by (by apply mv_from_reachable).
  assert (mv_reachable C34_once) by (apply MvRefresh; [done|done|lia]).
  assert (mv_reachable C34_twice) by (apply MvRefresh; [done|done|lia]).
  do 2 eexists. split; [orderly_by ltac:(exact I)|]. split; [done|]. split; [computed|]. split; [by mv_reads_by_computing|].
  split; [computed|]. by mv_reads_by_computing.
Qed.
Print Assumptions C34_refuted_skipped.
(** A refresh through a handle that has not seen an earlier refresh starts from
    the snapshot ID the handle remembers: the transaction it opens reloads the
    metadata only afterwards.  The rows are added again. *)
Definition C34_two_handles : sys := ex_calls [ex_create; CLoad 1].
Definition C34_stale_source : sys := ex_calls [ex_create; ex_add [ex_row 3 "c" "C"]].
Definition C34_fresh : sys := (after2 C34_stale_source 0 C34_two_handles 0 C34_refresh).2.
Definition C34_stale : sys := (after2 C34_stale_source 0 C34_fresh 1 C34_refresh).2.
Theorem C34_refuted_stale : ∃ st st',
  orderly separate_op init C34_stale_source ∧ mv_reachable C34_fresh
  ∧ result2 C34_stale_source 0 C34_two_handles 0 C34_refresh = Some (Ok [JSucceeded st])
  ∧ reads C34_fresh 1 None [ex_row 3 "new" "C"]
  ∧ result2 C34_stale_source 0 C34_fresh 1 C34_refresh = Some (Ok [JSucceeded st'])
  ∧ reads C34_stale 1 None [ex_row 3 "new" "C"; ex_row 3 "new" "C"].
Proof.
  assert (reachable C34_stale_source) by (apply reach; calls).
  assert (reachable C34_two_handles) by (apply reach; calls).
  assert (mv_reachable C34_two_handles) by (by apply mv_from_reachable).
  assert (mv_reachable C34_fresh) by (apply MvRefresh; [done|done|lia]).
  assert (mv_reachable C34_stale) by (apply MvRefresh; [done|done|lia]).
  do 2 eexists. split; [orderly_by ltac:(exact I)|]. split; [done|]. split; [computed|]. split; [by mv_reads_by_computing|].
  split; [computed|]. by mv_reads_by_computing.
Qed.
Print Assumptions C34_refuted_stale.
