(** C55: a refresh that stops early leaves the materialized view at a version of
    the source.  The notions are those of C34. *)
From Verif.Model Require Import Refresh.
From Verif.Spec Require Import Api Fixture Changes Orderly Uniqueness Refreshing RefreshStops Free.
From Verif.Proofs Require Import Replay RefreshSource RefreshStopped Witness RefreshWitness PatchEdges FreeWitness.

(** Whatever the result [r] of a refresh from version [i] to [j] (jobs, some of
    which may have failed, or an error raised midway): afterwards the
    materialized view holds the view of one of the versions [i :: l] on the way,
    never a part of a snapshot's changes.  If no job failed it is version [j];
    a failed job is the last one.  The hypotheses are those of
    [C34_refresh_partial], with any result.  (Missing, as there: recorded row
    counts are assumed exact, that is, no delete loses rows.) *)
Theorem C55_stops_at_version_partial : ∀ (F : Type) (map_fn : F → row → list row) (keep_fn : F → row → bool)
    E O n blocks (v : view F) target batch σs hid_s hs ss ms σ hid h sm m i j l r rows_i mv,
  let refresh := run_refresh map_fn keep_fn E O n blocks v target batch in
  let σ' := (after2 σs hid_s σ hid refresh).2 in
  keeping separate_op init σs → y_handles σs !! hid_s = Some hs → schema_at σs hid_s = Some ss → stored_meta (w_fs (y_world σs)) = Some ms →
  mv_reachable σ → y_handles σ !! hid = Some h → schema_at σ hid = Some sm → stored_meta (w_fs (y_world σ)) = Some m →
  h_meta h = m → h_branch h = MAIN → 1 ≤ n →
  s_pks sm = s_pks ss → plain_keys sm → keeps_keys map_fn keep_fn v (s_pks ss) →
  md_current m = i → refresh_target hs target = Some j → path_to ms i j l →
  (∀ k sn rows, k ∈ i :: l → md_snaps ms !! k = Some sn → reads σs hid_s (Some (VId k)) rows →
     unique_keys (s_pks ss) rows ∧ proper_keys (s_pks ss) rows ∧ st_rows (sn_stats sn) = Z.of_nat (length rows)) →
  reads σs hid_s (Some (VId i)) rows_i → reads σ hid None mv → mv ≡ₚ show sm <$> view_rows map_fn keep_fn v rows_i →
  result2 σs hid_s σ hid refresh = Some r →
  (∀ m' k sn rows, stored_meta (w_fs (y_world σ')) = Some m' → (i ≤ k)%Z → md_snaps m' !! k = Some sn →
     reads σ' hid (Some (VId k)) rows → st_rows (sn_stats sn) = Z.of_nat (length rows)) →
  ∃ k rows_k new, k ∈ i :: l ∧ reads σs hid_s (Some (VId k)) rows_k ∧ reads σ' hid None new
    ∧ new ≡ₚ show sm <$> view_rows map_fn keep_fn v rows_k
    ∧ (∀ jobs, r = Ok jobs → (JFailed ∉ jobs ∧ k = j) ∨ ∃ js, jobs = js ++ [JFailed] ∧ JFailed ∉ js).
Proof. intros F. exact refresh_at_version. Qed.
Print Assumptions C55_stops_at_version_partial.

(** The jobs a refresh returns account for its commits: the current snapshot ID
    of the materialized view moves by the number of jobs that succeeded, also if
    the last job failed (branches and tags being older, no earlier commit of the
    handle having failed). *)
Theorem C55_jobs_count : ∀ (F : Type) (map_fn : F → row → list row) (keep_fn : F → row → bool)
    E O n blocks (v : view F) target batch σs hid_s hs ss ms σ hid h sm m m' i j l jobs,
  let refresh := run_refresh map_fn keep_fn E O n blocks v target batch in
  reachable σs → y_handles σs !! hid_s = Some hs → schema_at σs hid_s = Some ss → stored_meta (w_fs (y_world σs)) = Some ms →
  mv_reachable σ → y_handles σ !! hid = Some h → schema_at σ hid = Some sm → stored_meta (w_fs (y_world σ)) = Some m →
  h_meta h = m → h_branch h = MAIN → 1 ≤ n →
  md_current m = i → (h_max h ≤ i)%Z → (∀ x r, md_refs m !! x = Some r → (rf_id r ≤ i)%Z) →
  refresh_target hs target = Some j → path_to ms i j l →
  result2 σs hid_s σ hid refresh = Some (Ok jobs) →
  stored_meta (w_fs (y_world (after2 σs hid_s σ hid refresh).2)) = Some m' →
  md_current m' = (i + Z.of_nat (successes jobs))%Z.
Proof. intros F. exact refresh_counts. Qed.
Print Assumptions C55_jobs_count.

(** A map whose result does not fit the schema for key 4. *)
Definition C55_map (f : string) (r : row) : list row :=
  [[("k", default CNull (rget "k" r));
    ("v", if bool_decide (row_look r "k" = Some (SNum 4)) then CVal (SNum 4) else CVal (SStr f)); ("r", default CNull (rget "r" r))]].
Definition C55_keep (f : string) (r : row) : bool := true.
Definition C55_view : view string :=
  VMap (Udf "new" [] [] None) (VData "src" MAIN (Schema (assign_field_ids ex_fields) ["k"] ["r"])) ["k"; "v"; "r"].
Definition C55_refresh : ST two (list job) := run_refresh C55_map C55_keep ex_env ex_large 2 true C55_view None None.
Lemma C55_keys : keeps_keys C55_map C55_keep C55_view ["k"].
Proof.
  intros r x Hx. unfold C55_view in Hx. cbn [view_rows u_fn] in Hx. apply elem_of_list_singleton in Hx as ->.
  unfold key_of, row_look. cbn. by destruct (rget "k" r).
Qed.
Definition C55_source : sys := ex_calls [ex_create; ex_add [ex_row 1 "a" "A"; ex_row 3 "c" "C"];
  CRun 0 ex_env ex_large (ODelete (ex_cmp OpEq "k" (SNum 3)));
  CRun 0 ex_env ex_large (OInsert MUpsert [ex_row 1 "b" "B"; ex_row 4 "x" "X"])].
Definition C55_mv : sys := ex_calls [ex_create].
Definition C55_after : sys := (after2 C55_source 0 C55_mv 0 C55_refresh).2.
(** The refresh raises an error at the third snapshot, after deleting the row
    with key 1 but before adding it again: the materialized view stays at version
    2 of the source. *)
Example C55_case : ∃ hs ss ms h sm m m' e rows_2,
  keeping separate_op init C55_source ∧ y_handles C55_source !! 0 = Some hs ∧ schema_at C55_source 0 = Some ss
  ∧ stored_meta (w_fs (y_world C55_source)) = Some ms
  ∧ mv_reachable C55_mv ∧ y_handles C55_mv !! 0 = Some h ∧ schema_at C55_mv 0 = Some sm ∧ stored_meta (w_fs (y_world C55_mv)) = Some m
  ∧ h_meta h = m ∧ h_branch h = MAIN ∧ s_pks sm = s_pks ss ∧ plain_keys sm ∧ keeps_keys C55_map C55_keep C55_view (s_pks ss)
  ∧ md_current m = 0%Z ∧ refresh_target hs None = Some 3%Z ∧ path_to ms 0 3 [1; 2; 3]%Z
  ∧ (∀ k sn rows, k ∈ [0; 1; 2; 3]%Z → md_snaps ms !! k = Some sn → reads C55_source 0 (Some (VId k)) rows →
       unique_keys (s_pks ss) rows ∧ proper_keys (s_pks ss) rows ∧ st_rows (sn_stats sn) = Z.of_nat (length rows))
  ∧ reads C55_source 0 (Some (VId 0)) [] ∧ reads C55_mv 0 None []
  ∧ result2 C55_source 0 C55_mv 0 C55_refresh = Some (Err e)
  ∧ stored_meta (w_fs (y_world C55_after)) = Some m'
  ∧ (∀ k sn rows, (0 ≤ k)%Z → md_snaps m' !! k = Some sn → reads C55_after 0 (Some (VId k)) rows →
       st_rows (sn_stats sn) = Z.of_nat (length rows))
  ∧ reads C55_source 0 (Some (VId 2)) rows_2
  ∧ reads C55_after 0 None [ex_row 1 "new" "A"]
  ∧ (show sm <$> view_rows C55_map C55_keep C55_view rows_2) = [ex_row 1 "new" "A"].
Proof.
  assert (reachable C55_source) by (apply reach; calls).
  assert (reachable C55_mv) by (apply reach; calls).
  assert (mv_reachable C55_mv) by (by apply mv_from_reachable).
  assert (mv_reachable C55_after) by (apply MvRefresh; [done|done|lia]).
  do 9 eexists. split; [keeping_by ltac:(exact I)|]. split; [computed|]. split; [computed|]. split; [computed|]. split; [done|].
  split; [computed|]. split; [computed|]. split; [computed|]. split; [computed|]. split; [computed|]. split; [computed|].
  split; [apply plain_keys_tested; computed|]. split; [apply C55_keys|]. split; [computed|].
  split; [computed|]. split; [apply (path_tested _ _ _ [3; 2; 1]%Z []%Z); [computed|done]|].
  split; [apply good_versions_tested; computed|].
  split; [by reads_by_computing|]. split; [by reads_by_computing|]. split; [computed|].
  split; [computed|].
  split; [intros k sn rows _; apply counts_tested; computed|].
  split; [by reads_by_computing|]. split; [by mv_reads_by_computing|]. computed.
Qed.

(** A refresh of two snapshots whose first has no rows for the view: of the two
    jobs one is skipped, and the ID moves by one. *)
Definition C55_keep_some (f : string) (r : row) : bool := match row_look r "k" with Some (SNum z) => (3 <=? z)%Z | _ => false end.
Definition C55_some : view string :=
  VFilter (Udf "keep" [] [] None) (VData "src" MAIN (Schema (assign_field_ids ex_fields) ["k"] ["r"])) ["k"; "v"; "r"].
Definition C55_skip : ST two (list job) := run_refresh C55_map C55_keep_some ex_env ex_large 2 true C55_some None None.
Definition C55_skip_source : sys := ex_calls [ex_create; ex_add [ex_row 1 "a" "A"]; ex_add [ex_row 3 "c" "C"]].
Example C55_count_case : ∃ hs ss ms h sm m m' jobs,
  reachable C55_skip_source ∧ y_handles C55_skip_source !! 0 = Some hs ∧ schema_at C55_skip_source 0 = Some ss
  ∧ stored_meta (w_fs (y_world C55_skip_source)) = Some ms
  ∧ mv_reachable C55_mv ∧ y_handles C55_mv !! 0 = Some h ∧ schema_at C55_mv 0 = Some sm ∧ stored_meta (w_fs (y_world C55_mv)) = Some m
  ∧ h_meta h = m ∧ h_branch h = MAIN ∧ md_current m = 0%Z ∧ h_max h = 0%Z ∧ md_refs m = ∅
  ∧ refresh_target hs None = Some 2%Z ∧ path_to ms 0 2 [1; 2]%Z
  ∧ result2 C55_skip_source 0 C55_mv 0 C55_skip = Some (Ok jobs) ∧ length jobs = 2 ∧ successes jobs = 1
  ∧ stored_meta (w_fs (y_world (after2 C55_skip_source 0 C55_mv 0 C55_skip).2)) = Some m' ∧ md_current m' = 1%Z.
Proof.
  assert (reachable C55_skip_source) by (apply reach; calls).
  assert (mv_reachable C55_mv) by (apply mv_from_reachable, reach; calls).
  do 8 eexists. split; [done|]. split; [computed|]. split; [computed|]. split; [computed|]. split; [done|].
  split; [computed|]. split; [computed|]. split; [computed|]. split; [computed|]. split; [computed|]. split; [computed|].
  split; [computed|]. split; [computed|]. split; [computed|].
  split; [apply (path_tested _ _ _ [2; 1]%Z []%Z); [computed|done]|].
  split; [computed|]. split; [done|]. split; [computed|]. split; computed.
Qed.
