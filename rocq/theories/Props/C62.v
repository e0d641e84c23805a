(** C62: versions and diffs of a materialized view.  The source is one storage,
    the materialized view another; the notions are those of C34 and C61. *)
From Verif.Model Require Import MvRead.
From Verif.Spec Require Import Api Fixture Changes Orderly Uniqueness Refreshing MvDiffs Free.
From Verif.Proofs Require Import Replay RefreshSource MvDiffs Witness RefreshWitness PatchEdges FreeWitness.

(** A read of a materialized view, of any version, with any options, returns
    what a local read of its storage returns. *)
Theorem C62_read : ∀ σs hid_s hs σ hid s E E' blocks flt fields v ref b b',
  y_handles σs !! hid_s = Some hs → mv_reachable σ → schema_at σ hid = Some s →
  (∀ ns n, fields = Some ns → n ∈ ns → n ∈ s_names s) →
  (fun r => rmap (@concat row) r) <$> result2 σs hid_s σ hid (run_mv_read E blocks flt fields v ref b)
  = result σ hid (run_read_all E' flt fields v ref b').
Proof. exact mv_read_local. Qed.
Print Assumptions C62_read.

(** Replaying the diff of a materialized view between versions [a] and [b] on its
    rows of version [a] gives its rows of version [b], if at both versions it is in
    step with its source: snapshot [k] holds the view of the source's snapshot [k].
    The other hypotheses are those of C61.  (Missing: versions at which the
    materialized view is not in step, see the refutations.) *)
Theorem C62_diff_partial : ∀ (F : Type) (map_fn : F → row → list row) (keep_fn : F → row → bool)
    σs hid_s hs ss ms σ hid h sm E E' n blocks (v : view F) a b batch batch' i j l cs out mv_i mv_j,
  keeping separate_op init σs → y_handles σs !! hid_s = Some hs → schema_at σs hid_s = Some ss → stored_meta (w_fs (y_world σs)) = Some ms →
  mv_reachable σ → y_handles σ !! hid = Some h → schema_at σ hid = Some sm → s_pks sm = s_pks ss →
  1 ≤ n → keeps_keys map_fn keep_fn v (s_pks ss) →
  named ms a = Some i → named ms b = Some j → path_to ms i j l →
  (∀ k sn rows, k ∈ i :: l → md_snaps ms !! k = Some sn → reads σs hid_s (Some (VId k)) rows →
     unique_keys (s_pks ss) rows ∧ st_rows (sn_stats sn) = Z.of_nat (length rows)) →
  result σs hid_s (run_diff E' a b batch') = Some (Ok cs) → served map_fn keep_fn v (added_rows (changed_rows cs)) →
  in_step map_fn keep_fn v σs hid_s σ hid sm i → in_step map_fn keep_fn v σs hid_s σ hid sm j →
  reads σ hid (Some (VId i)) mv_i → reads σ hid (Some (VId j)) mv_j →
  result2 σs hid_s σ hid (run_mv_diff map_fn keep_fn E n blocks v a b batch) = Some (Ok out) →
  apply_changes (s_pks sm) mv_i (shown_change sm <$> out) ≡ₚ mv_j.
Proof. intros F. exact (@mv_diff_leads F). Qed.
Print Assumptions C62_diff_partial.

(** A refresh from [i] to [j] all of whose transactions succeed, as many as there
    are numbers from [i] to [j], leaves the materialized view in step at [j], and
    at the older versions at which it was.  The other hypotheses are those of
    C34. *)
Theorem C62_in_step_partial : ∀ (F : Type) (map_fn : F → row → list row) (keep_fn : F → row → bool)
    σs hid_s hs ss ms σ hid h sm m E O n blocks (v : view F) target batch i j l jobs rows_j,
  let refresh := run_refresh map_fn keep_fn E O n blocks v target batch in
  let σ' := (after2 σs hid_s σ hid refresh).2 in
  keeping separate_op init σs → y_handles σs !! hid_s = Some hs → schema_at σs hid_s = Some ss → stored_meta (w_fs (y_world σs)) = Some ms →
  mv_reachable σ → y_handles σ !! hid = Some h → schema_at σ hid = Some sm → stored_meta (w_fs (y_world σ)) = Some m →
  h_meta h = m → h_branch h = MAIN → 1 ≤ n →
  s_pks sm = s_pks ss → plain_keys sm → keeps_keys map_fn keep_fn v (s_pks ss) →
  md_current m = i → (h_max h ≤ i)%Z → (∀ x r, md_refs m !! x = Some r → (rf_id r ≤ i)%Z) →
  refresh_target hs target = Some j → path_to ms i j l →
  (∀ k sn rows, k ∈ i :: l → md_snaps ms !! k = Some sn → reads σs hid_s (Some (VId k)) rows →
     unique_keys (s_pks ss) rows ∧ proper_keys (s_pks ss) rows ∧ st_rows (sn_stats sn) = Z.of_nat (length rows)) →
  in_step map_fn keep_fn v σs hid_s σ hid sm i →
  result2 σs hid_s σ hid refresh = Some (Ok jobs) → Forall (fun r => ∃ st, r = JSucceeded st) jobs →
  Z.of_nat (length jobs) = (j - i)%Z →
  (∀ m' k sn rows, stored_meta (w_fs (y_world σ')) = Some m' → (i ≤ k)%Z → md_snaps m' !! k = Some sn →
     reads σ' hid (Some (VId k)) rows → st_rows (sn_stats sn) = Z.of_nat (length rows)) →
  reads σs hid_s (Some (VId j)) rows_j →
  in_step map_fn keep_fn v σs hid_s σ' hid sm j
  ∧ ∀ k, (k ≤ i)%Z → in_step map_fn keep_fn v σs hid_s σ hid sm k → in_step map_fn keep_fn v σs hid_s σ' hid sm k.
Proof. intros F. exact (@refreshed_in_step F). Qed.
Print Assumptions C62_in_step_partial.

(** A view that sets column [v] and keeps the rows with a large enough key. *)
Definition C62_map (f : string) (r : row) : list row :=
  [[("k", default CNull (rget "k" r)); ("v", CVal (SStr f)); ("r", default CNull (rget "r" r))]].
Definition C62_keep (f : string) (r : row) : bool := match row_look r "k" with Some (SNum z) => (3 <=? z)%Z | _ => false end.
Definition C62_view : view string :=
  VFilter (Udf "keep" [] [] None)
    (VMap (Udf "new" [] [] None) (VData "src" MAIN (Schema (assign_field_ids ex_fields) ["k"] ["r"])) ["k"; "v"; "r"]) ["k"; "v"; "r"].
Lemma C62_keys : keeps_keys C62_map C62_keep C62_view ["k"].
Proof.
  intros r x Hx. unfold C62_view in Hx. cbn [view_rows u_fn] in Hx. apply elem_of_list_filter in Hx as [_ Hx]. apply elem_of_list_singleton in Hx as ->.
  unfold key_of, row_look. cbn. by destruct (rget "k" r).
Qed.
Definition C62_refresh (t : option version) : ST two (list job) := run_refresh C62_map C62_keep ex_env ex_large 2 true C62_view t None.
Definition C62_diff (a b : version) : ST two (list change) := run_mv_diff C62_map C62_keep ex_env 2 true C62_view a b None.
Definition C62_source : sys := ex_calls [ex_create; ex_add [ex_row 1 "a" "A"; ex_row 3 "c" "C"; ex_row 4 "d" "D"];
  CRun 0 ex_env ex_large (ODelete (ex_cmp OpEq "k" (SNum 3)));
  CRun 0 ex_env ex_large (OInsert MUpsert [ex_row 4 "x" "X"; ex_row 9 "y" "Y"])].
Definition C62_empty : sys := ex_calls [ex_create].
(** Refreshed to version 1, then to version 3. *)
Definition C62_first : sys := (after2 C62_source 0 C62_empty 0 (C62_refresh (Some (VId 1)))).2.
Definition C62_last : sys := (after2 C62_source 0 C62_first 0 (C62_refresh None)).2.
Example C62_case_read :
  mv_reachable C62_last
  ∧ result2 C62_source 0 C62_last 0 (run_mv_read ex_env true None None (Some (VId 1)) false None)
    = Some (Ok [[ex_row 3 "new" "C"]; [ex_row 4 "new" "D"]]).
Proof.
  assert (reachable C62_source) by (apply reach; calls).
  assert (mv_reachable C62_empty) by (apply mv_from_reachable, reach; calls).
  assert (mv_reachable C62_first) by (apply MvRefresh; [done|done|lia]).
  split; [apply MvRefresh; [done|done|lia]|]. computed.
Qed.
Example C62_case_diff : ∃ hs ss ms h sm cs out,
  keeping separate_op init C62_source ∧ y_handles C62_source !! 0 = Some hs ∧ schema_at C62_source 0 = Some ss
  ∧ stored_meta (w_fs (y_world C62_source)) = Some ms
  ∧ mv_reachable C62_last ∧ y_handles C62_last !! 0 = Some h ∧ schema_at C62_last 0 = Some sm ∧ s_pks sm = s_pks ss
  ∧ keeps_keys C62_map C62_keep C62_view (s_pks ss)
  ∧ path_to ms 1 3 [2; 3]%Z
  ∧ (∀ k sn rows, k ∈ [1; 2; 3]%Z → md_snaps ms !! k = Some sn → reads C62_source 0 (Some (VId k)) rows →
       unique_keys (s_pks ss) rows ∧ proper_keys (s_pks ss) rows ∧ st_rows (sn_stats sn) = Z.of_nat (length rows))
  ∧ result C62_source 0 (run_diff ex_env (VId 1) (VId 3) None) = Some (Ok cs)
  ∧ served C62_map C62_keep C62_view (added_rows (changed_rows cs))
  ∧ in_step C62_map C62_keep C62_view C62_source 0 C62_last 0 sm 1 ∧ in_step C62_map C62_keep C62_view C62_source 0 C62_last 0 sm 3
  ∧ reads C62_last 0 (Some (VId 1)) [ex_row 3 "new" "C"; ex_row 4 "new" "D"]
  ∧ reads C62_last 0 (Some (VId 3)) [ex_row 4 "new" "X"; ex_row 9 "new" "Y"]
  ∧ result2 C62_source 0 C62_last 0 (C62_diff (VId 1) (VId 3)) = Some (Ok out)
  ∧ changed_rows out = [(2%Z, ChDelete, [("k", CVal (SNum 3))]); (3%Z, ChDelete, [("k", CVal (SNum 4))]);
                        (3%Z, ChAdd, ex_row 4 "new" "X"); (3%Z, ChAdd, ex_row 9 "new" "Y")].
Proof.
  assert (reachable C62_source) by (apply reach; calls).
  assert (mv_reachable C62_empty) by (apply mv_from_reachable, reach; calls).
  assert (mv_reachable C62_first) by (apply MvRefresh; [done|done|lia]).
  assert (mv_reachable C62_last) by (apply MvRefresh; [done|done|lia]).
  assert (Heq : ∀ a b : list row, a = b → a ≡ₚ b) by (by intros a b ->).
  do 7 eexists. split; [keeping_by ltac:(exact I)|]. split; [computed|]. split; [computed|]. split; [computed|]. split; [done|].
  split; [computed|]. split; [computed|]. split; [computed|]. split; [apply C62_keys|].
  split; [apply (path_tested _ _ _ [3; 2]%Z [0]%Z); [computed|done]|].
  split; [apply good_versions_tested; computed|]. split; [computed|].
  split.
  { split; [split; [done|]|]; intros r c Hr' Hc; cbn in Hr'; repeat (apply elem_of_cons in Hr' as [->|Hr']; [|]); try by apply elem_of_nil in Hr'.
    all: repeat (apply elem_of_cons in Hc as [->|Hc]; [set_solver|]); by apply elem_of_nil in Hc. }
  split; [do 2 eexists; split; [by reads_by_computing|]; split; [by mv_reads_by_computing|]; apply Heq; computed|].
  split; [do 2 eexists; split; [by reads_by_computing|]; split; [by mv_reads_by_computing|]; apply Heq; computed|].
  split; [by mv_reads_by_computing|]. split; [by mv_reads_by_computing|]. split; computed.
Qed.

(** The second refresh. *)
Example C62_case_in_step : ∃ hs ss ms h sm m m' jobs rows_j,
  keeping separate_op init C62_source ∧ y_handles C62_source !! 0 = Some hs ∧ schema_at C62_source 0 = Some ss
  ∧ stored_meta (w_fs (y_world C62_source)) = Some ms
  ∧ mv_reachable C62_first ∧ y_handles C62_first !! 0 = Some h ∧ schema_at C62_first 0 = Some sm
  ∧ stored_meta (w_fs (y_world C62_first)) = Some m
  ∧ h_meta h = m ∧ h_branch h = MAIN ∧ s_pks sm = s_pks ss ∧ plain_keys sm ∧ keeps_keys C62_map C62_keep C62_view (s_pks ss)
  ∧ md_current m = 1%Z ∧ h_max h = 1%Z ∧ md_refs m = ∅ ∧ refresh_target hs None = Some 3%Z ∧ path_to ms 1 3 [2; 3]%Z
  ∧ (∀ k sn rows, k ∈ [1; 2; 3]%Z → md_snaps ms !! k = Some sn → reads C62_source 0 (Some (VId k)) rows →
       unique_keys (s_pks ss) rows ∧ proper_keys (s_pks ss) rows ∧ st_rows (sn_stats sn) = Z.of_nat (length rows))
  ∧ in_step C62_map C62_keep C62_view C62_source 0 C62_first 0 sm 1
  ∧ result2 C62_source 0 C62_first 0 (C62_refresh None) = Some (Ok jobs) ∧ Forall (fun r => ∃ st, r = JSucceeded st) jobs
  ∧ Z.of_nat (length jobs) = (3 - 1)%Z ∧ stored_meta (w_fs (y_world C62_last)) = Some m'
  ∧ (∀ k sn rows, (1 ≤ k)%Z → md_snaps m' !! k = Some sn → reads C62_last 0 (Some (VId k)) rows →
       st_rows (sn_stats sn) = Z.of_nat (length rows))
  ∧ reads C62_source 0 (Some (VId 3)) rows_j.
Proof.
  assert (reachable C62_source) by (apply reach; calls).
  assert (mv_reachable C62_empty) by (apply mv_from_reachable, reach; calls).
  assert (mv_reachable C62_first) by (apply MvRefresh; [done|done|lia]).
  assert (Heq : ∀ a b : list row, a = b → a ≡ₚ b) by (by intros a b ->).
  do 9 eexists. split; [keeping_by ltac:(exact I)|]. split; [computed|]. split; [computed|]. split; [computed|]. split; [done|].
  split; [computed|]. split; [computed|]. split; [computed|]. split; [computed|]. split; [computed|]. split; [computed|].
  split; [apply plain_keys_tested; computed|]. split; [apply C62_keys|]. split; [computed|]. split; [computed|]. split; [computed|].
  split; [computed|]. split; [apply (path_tested _ _ _ [3; 2]%Z [0]%Z); [computed|done]|].
  split; [apply good_versions_tested; computed|].
  split; [do 2 eexists; split; [by reads_by_computing|]; split; [by mv_reads_by_computing|]; apply Heq; computed|].
  split; [computed|]. split; [repeat (constructor; [by eexists|]); constructor|]. split; [done|]. split; [computed|].
  split; [intros k sn rows _; apply counts_tested; computed|]. by reads_by_computing.
Qed.

(** The full claim fails: reads take versions of the materialized view, diffs take
    versions of the source.  The view has no rows for snapshot 1 of the source,
    so snapshot 1 of the materialized view is made of snapshot 2 of the source: it
    has a row, but its diff from 0 to 1 reports no change. *)
Definition C62_skip_source : sys := ex_calls [ex_create; ex_add [ex_row 1 "a" "A"]; ex_add [ex_row 3 "c" "C"]].
Definition C62_skipped : sys := (after2 C62_skip_source 0 C62_empty 0 (C62_refresh None)).2.
Theorem C62_refuted_skipped : ∃ sm out,
  orderly separate_op init C62_skip_source ∧ mv_reachable C62_skipped ∧ schema_at C62_skipped 0 = Some sm
  ∧ reads C62_skipped 0 (Some (VId 0)) [] ∧ reads C62_skipped 0 (Some (VId 1)) [ex_row 3 "new" "C"]
  ∧ result2 C62_skip_source 0 C62_skipped 0 (C62_diff (VId 0) (VId 1)) = Some (Ok out)
  ∧ apply_changes (s_pks sm) [] (shown_change sm <$> out) = [].
Proof.
  assert (reachable C62_skip_source) by (apply reach; calls).
  assert (mv_reachable C62_empty) by (apply mv_from_reachable, reach; calls).
  assert (mv_reachable C62_skipped) by (apply MvRefresh; [done|done|lia]).
  do 2 eexists. split; [orderly_by ltac:(exact I)|]. split; [done|]. split; [computed|]. split; [by mv_reads_by_computing|].
  split; [by mv_reads_by_computing|]. split; computed.
Qed.
Print Assumptions C62_refuted_skipped.

(** A tag of the materialized view can be read, but not given to diff. *)
Definition C62_tagged : sys := step C62_first (CEdit 0 (EdAddTag "t" None)).
Theorem C62_refuted_tag :
  orderly separate_op init C62_source ∧ mv_reachable C62_tagged
  ∧ reads C62_tagged 0 (Some (VName "t")) [ex_row 3 "new" "C"; ex_row 4 "new" "D"]
  ∧ result2 C62_source 0 C62_tagged 0 (C62_diff (VId 0) (VName "t")) = Some (Err (EUser UVersionNotFound)).
Proof.
  assert (reachable C62_source) by (apply reach; calls).
  assert (mv_reachable C62_empty) by (apply mv_from_reachable, reach; calls).
  assert (mv_reachable C62_first) by (apply MvRefresh; [done|done|lia]).
  assert (mv_reachable C62_tagged) by (apply MvCall; [done|exact I]).
  split; [orderly_by ltac:(exact I)|]. split; [done|]. split; [by mv_reads_by_computing|]. computed.
Qed.
Print Assumptions C62_refuted_tag.
