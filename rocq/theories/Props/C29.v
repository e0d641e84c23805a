(** C29: the byte statistics of a snapshot equal the sum over its files. *)
From Verif.Spec Require Import Api Fixture Pruning Layout Candidates Changes Orderly Free Deletion Sizes.
From Verif.Proofs Require Import PatchFacts DeleteBytes Witness FreeWitness.

(** The full claim fails: a delete subtracts the sizes of all files the filter
    may match, also of those it does not touch (core/ops/delete.py:78-166). *)
Theorem C29_refuted : ∃ σ m sn,
  orderly careful_op init σ ∧ stored_meta (w_fs (y_world σ)) = Some m ∧ md_snaps m !! 3%Z = Some sn
  ∧ length (files_of (w_fs (y_world σ)) sn) = 2
  ∧ st_ub (sn_stats sn) ≠ sum_of (mr_ub <$> files_of (w_fs (y_world σ)) sn).
Proof.
  set (cs := [ex_create; ex_add [ex_row 1 "a" "A"; ex_row 5 "b" "B"]; ex_add [ex_row 2 "c" "C"; ex_row 3 "d" "D"];
              CRun 0 ex_env ex_large (ODelete (ex_cmp OpEq "k" (SNum 3)))]).
  exists (ex_calls cs). do 2 eexists.
  split; [orderly_by careful_tested|]. split; [computed|]. split; [computed|]. split; [computed|by vm_compute].
Qed.
Print Assumptions C29_refuted.

(** It holds for all histories without deletes and upserts; distributed appends
    and inserts may occur, and branches be removed and edits go through outdated
    handles, also while transactions are open. *)
Theorem C29_bytes_exact_partial : ∀ σ m i sn,
  limited adds_only init σ → stored_meta (w_fs (y_world σ)) = Some m → md_snaps m !! i = Some sn →
  st_cb (sn_stats sn) = sum_of (mr_cb <$> files_of (w_fs (y_world σ)) sn)
  ∧ st_ub (sn_stats sn) = sum_of (mr_ub <$> files_of (w_fs (y_world σ)) sn).
Proof. exact bytes_exact_free. Qed.
Print Assumptions C29_bytes_exact_partial.

Definition C29_calls : list call :=
  [ex_flat; CRun 0 ex_env ex_opts (OInsert MInsert [ex_flat_row 1 "a"; ex_flat_row 2 "b"]);
   ex_parquet "x" [ex_flat_row 5 "e"; ex_flat_row 6 "f"; ex_flat_row 7 "g"]; ex_load "x"; CLoad 1;
   CBegin 1 7; COp 7 ex_env ex_split (OAppend [[ex_flat_row 11 "k"]]);
   CEdit 0 (EdAddBranch "b"); CEdit 0 (EdRemoveBranch "b"); CCommit 7;
   CRun 1 ex_env ex_split (OAppend [[ex_flat_row 3 "c"]; [ex_flat_row 4 "d"]]);
   CRun 0 ex_env ex_split (ORayAppend 2 [ex_flat_row 8 "h"; ex_flat_row 9 "i"; ex_flat_row 10 "j"])].
Example C29_case : ∃ m sn,
  limited adds_only init (ex_calls C29_calls) ∧ stored_meta (w_fs (y_world (ex_calls C29_calls))) = Some m
  ∧ md_snaps m !! 5%Z = Some sn ∧ length (files_of (w_fs (y_world (ex_calls C29_calls))) sn) = 8
  ∧ st_ub (sn_stats sn) ≠ 0%Z.
Proof.
  do 2 eexists. split; [limited_by_computing|]. split; [computed|]. split; [computed|]. split; [computed|by vm_compute].
Qed.

(** By how much a delete puts the statistics off, exactly: the sizes of the files
    in rewritten manifests are added, those of lost files too, and those of all
    candidate files are subtracted. *)
Theorem C29_delete_excess : ∀ σ hid s E fo e st before fset sn mans,
  reachable σ → schema_at σ hid = Some s → current σ hid = Some sn → reads σ hid None before → ignores (s_recs s) e →
  result σ hid (candidates e) = Some (Ok fset) → divides σ hid before mans →
  result σ hid (run_delete E fo e) = Some (Ok (JSucceeded st)) →
  let cs := df_path <$> fset_files fset in
  let fs := w_fs (y_world σ) in
  let σ' := after σ hid (run_delete E fo e) in
  ∃ sn', current σ' hid = Some sn' ∧ ∀ sz, sz ∈ index_sizes →
    excess sz (w_fs (y_world σ')) sn' = (excess sz fs sn + sum_of (sz.1 <$> gone_files fs (sn_idx sn) cs e mans)
      + sum_of (sz.1 <$> lost_files fs (sn_idx sn) cs e mans) - sum_of (sz.2 <$> (df_stats <$> fset_files fset)))%Z.
Proof. exact delete_bytes_exact. Qed.
Print Assumptions C29_delete_excess.

(** So a delete keeps exact statistics exact if every candidate file has a row to
    remove and shares its manifest with such files only. *)
Theorem C29_delete_exact_partial : ∀ σ hid s E fo e st before fset sn mans,
  reachable σ → schema_at σ hid = Some s → current σ hid = Some sn → reads σ hid None before → ignores (s_recs s) e →
  result σ hid (candidates e) = Some (Ok fset) → divides σ hid before mans →
  rewrites_whole (df_path <$> fset_files fset) e mans →
  result σ hid (run_delete E fo e) = Some (Ok (JSucceeded st)) →
  let σ' := after σ hid (run_delete E fo e) in
  ∃ sn', current σ' hid = Some sn' ∧ ∀ sz, sz ∈ index_sizes →
    excess sz (w_fs (y_world σ')) sn' = excess sz (w_fs (y_world σ)) sn.
Proof. exact delete_bytes_whole. Qed.
Print Assumptions C29_delete_exact_partial.

(** Keys 1 and 5 in one file, 2 and 3 in another; the delete of key 5 reads the
    first file only, that of key 3 both. *)
Definition C29_deletes : list call :=
  [ex_create; ex_add [ex_row 1 "a" "A"; ex_row 5 "b" "B"]; ex_add [ex_row 2 "c" "C"; ex_row 3 "d" "D"]].
Definition C29_mans (fs : fsys) (sn : snapshot) : list (list (path * list row)) :=
  zip_with (fun q rows => [(match manifest_rows fs q with m :: _ => mr_path m | [] => PExt "" end, rows)]) (sn_idx sn)
    [[ex_row 1 "a" "A"; ex_row 5 "b" "B"]; [ex_row 2 "c" "C"; ex_row 3 "d" "D"]].
Example C29_case_delete : ∃ σ s e3 e5 st3 st5 before fset3 fset5 sn mans,
  reachable σ ∧ schema_at σ 0 = Some s ∧ current σ 0 = Some sn ∧ reads σ 0 None before
  ∧ ignores (s_recs s) e3 ∧ ignores (s_recs s) e5
  ∧ result σ 0 (candidates e3) = Some (Ok fset3) ∧ result σ 0 (candidates e5) = Some (Ok fset5)
  ∧ divides σ 0 before mans
  ∧ result σ 0 (run_delete ex_env ex_large e3) = Some (Ok (JSucceeded st3))
  ∧ result σ 0 (run_delete ex_env ex_large e5) = Some (Ok (JSucceeded st5))
  ∧ rewrites_whole (df_path <$> fset_files fset5) e5 mans
  ∧ length (fset_files fset3) = 2 ∧ length (gone_files (w_fs (y_world σ)) (sn_idx sn) (df_path <$> fset_files fset3) e3 mans) = 1.
Proof.
  assert (reachable (ex_calls C29_deletes)) by (apply reach; calls).
  destruct (current (ex_calls C29_deletes) 0) as [sn|] eqn:Hsn; [|by vm_compute in Hsn].
  exists (ex_calls C29_deletes). eexists _, (ex_cmp OpEq "k" (SNum 3)), (ex_cmp OpEq "k" (SNum 5)), _, _, _, _, _, sn,
    (C29_mans (w_fs (y_world (ex_calls C29_deletes))) sn).
  vm_compute in Hsn. injection Hsn as <-.
  split_and!; [done|computed|computed|by reads_by_computing|apply ignores_tested; computed|apply ignores_tested; computed
    |computed|computed| |computed|computed| |computed|computed].
  - eexists. split; [computed|]. split; [|computed]. apply cut_tested. computed.
  - apply whole_tested. computed.
Qed.
