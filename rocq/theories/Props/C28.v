(** C28: the row count of a snapshot is the number of readable rows. *)
From Verif.Spec Require Import Api Fixture Changes Orderly Free.
From Verif.Proofs Require Import PatchFacts Witness FreeWitness.

(** The full claim fails: a delete that rewrites no file loses the files sharing
    a manifest with a deleted file (see C06), and counts the deleted rows only. *)
Theorem C28_refuted : ∃ σ h m sn rows,
  orderly separate_op init σ ∧ y_handles σ !! 0 = Some h ∧ stored_meta (w_fs (y_world σ)) = Some m
  ∧ md_snaps m !! 2%Z = Some sn ∧ reads σ 0 (Some (VId 2)) rows
  ∧ st_rows (sn_stats sn) = 3%Z ∧ length rows = 0.
Proof.
  set (cs := [ex_create; ex_two_files; CRun 0 ex_env ex_split (ODelete (ex_cmp OpLt "k" (SNum 3)))]).
  exists (ex_calls cs). do 4 eexists.
  assert (reachable (ex_calls cs)) by (apply reach; calls).
  split; [orderly_by ltac:(exact I)|]. split; [computed|]. split; [computed|]. split; [computed|].
  split; [by reads_by_computing|]. split; computed.
Qed.
Print Assumptions C28_refuted.
(** A distributed delete that changes two files of one manifest keeps the old
    version of each (see C32): here more rows are read than are counted. *)
Theorem C28_refuted_distributed : ∃ σ h m sn rows,
  orderly any_op init σ ∧ y_handles σ !! 0 = Some h ∧ stored_meta (w_fs (y_world σ)) = Some m
  ∧ md_snaps m !! 2%Z = Some sn ∧ reads σ 0 (Some (VId 2)) rows
  ∧ st_rows (sn_stats sn) = 3%Z ∧ length rows = 8.
Proof.
  set (cs := [ex_create; ex_two_files;
              CRun 0 ex_env ex_opts (ORayDelete (EBin FnAnd (ex_cmp OpGe "k" (SNum 2)) (ex_cmp OpLe "k" (SNum 3))))]).
  exists (ex_calls cs). do 4 eexists.
  assert (reachable (ex_calls cs)) by (apply reach; calls).
  split; [orderly_by ltac:(exact I)|]. split; [computed|]. split; [computed|]. split; [computed|].
  split; [by reads_by_computing|]. split; computed.
Qed.
Print Assumptions C28_refuted_distributed.

(** The row count is never too small, if distributed deletes leave the right
    rows ([separate_op]); all other operations, local and distributed, may lose
    rows.  The history is any ([free]): branches may be removed and edits go
    through outdated handles also while transactions are open, so that snapshot
    numbers are used again and a transaction may be committed on another snapshot
    than it started from. *)
Theorem C28_count_at_least_partial : ∀ σ hid h m i sn rows,
  free separate_op init σ → y_handles σ !! hid = Some h → stored_meta (w_fs (y_world σ)) = Some m → md_snaps m !! i = Some sn →
  reads σ hid (Some (VId i)) rows → (Z.of_nat (length rows) ≤ st_rows (sn_stats sn))%Z.
Proof. exact count_at_least_free. Qed.
Print Assumptions C28_count_at_least_partial.

(** It is exact when every delete and upsert, run on the snapshot it starts
    from, loses no rows ([careful_op]). *)
Theorem C28_count_exact_partial : ∀ σ hid h m i sn rows,
  free careful_op init σ → y_handles σ !! hid = Some h → stored_meta (w_fs (y_world σ)) = Some m → md_snaps m !! i = Some sn →
  reads σ hid (Some (VId i)) rows → st_rows (sn_stats sn) = Z.of_nat (length rows).
Proof. exact count_exact_free. Qed.
Print Assumptions C28_count_exact_partial.

(** Appends, an upsert in an open transaction, and deletes, on one machine and
    distributed; a branch is added and removed. *)
Definition C28_calls : list call :=
  [ex_create; CLoad 1; ex_append; CBegin 1 7; COp 7 ex_env ex_opts (OInsert MUpsert [ex_row 4 "x" "X"; ex_row 9 "y" "Y"]);
   CCommit 7; CEdit 1 (EdAddBranch "b"); CEdit 1 (EdRemoveBranch "b"); CRun 0 ex_env ex_opts (ODelete (ex_cmp OpEq "k" (SNum 1))); ex_add [ex_row 1 "a" "A"; ex_row 1 "b" "B"];
   CRun 0 ex_env ex_opts (ORayAppend 2 [ex_row 11 "p" "P"; ex_row 12 "q" "Q"; ex_row 13 "r" "R"]);
   CRun 1 ex_env ex_opts (ORayAppendFrom 3 [[[ex_row 21 "p" "P"]; [ex_row 22 "q" "Q"]]; [[ex_row 23 "r" "R"]]]);
   CRun 1 ex_env ex_opts (ORayInsert 2 MUpsert [ex_row 13 "s" "S"; ex_row 14 "t" "T"]);
   CRun 0 ex_env ex_opts (ORayDelete (ex_cmp OpEq "k" (SNum 22)))].
Example C28_case : ∃ h m sn rows,
  free careful_op init (ex_calls C28_calls) ∧ y_handles (ex_calls C28_calls) !! 0 = Some h
  ∧ stored_meta (w_fs (y_world (ex_calls C28_calls))) = Some m
  ∧ md_snaps m !! 8%Z = Some sn ∧ reads (ex_calls C28_calls) 0 (Some (VId 8)) rows ∧ length rows = 13.
Proof.
  assert (reachable (ex_calls C28_calls)) by (apply reach; calls).
  do 4 eexists. split; [free_by careful_tested|].
  split; [computed|]. split; [computed|]. split; [computed|]. split; [by reads_by_computing|computed].
Qed.
(** Branch b is removed and added again while a transaction on it is open, and is
    back at the number the transaction started from: the commit goes through, on
    another snapshot. *)
Definition C28_disturbed : list call :=
  [ex_create; CEdit 0 (EdAddBranch "b"); CEdit 0 (EdSetBranch "b");
   CRun 0 ex_env ex_opts (OInsert MInsert [ex_row 1 "a" "A"]);
   CBegin 0 7; COp 7 ex_env ex_opts (OInsert MInsert [ex_row 5 "e" "E"]);
   CLoad 1; CEdit 1 (EdRemoveBranch "b"); CEdit 1 (EdAddBranch "b");
   CLoad 2; CEdit 2 (EdSetBranch "b");
   CRun 2 ex_env ex_opts (OInsert MInsert [ex_row 5 "f" "F"; ex_row 6 "g" "G"]); CCommit 7].
Example C28_case_disturbed : ∃ h m sn rows,
  free careful_op init (ex_calls C28_disturbed) ∧ y_handles (ex_calls C28_disturbed) !! 0 = Some h
  ∧ stored_meta (w_fs (y_world (ex_calls C28_disturbed))) = Some m
  ∧ md_snaps m !! 2%Z = Some sn ∧ reads (ex_calls C28_disturbed) 0 (Some (VId 2)) rows ∧ length rows = 3.
Proof.
  assert (reachable (ex_calls C28_disturbed)) by (apply reach; calls).
  do 4 eexists. split; [free_by careful_tested|].
  split; [computed|]. split; [computed|]. split; [computed|]. split; [by reads_by_computing|computed].
Qed.
