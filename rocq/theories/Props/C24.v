(** C24: replaying a diff reproduces the end version. *)
From Verif.Spec Require Import Api Fixture Changes Orderly Uniqueness Free.
From Verif.Proofs Require Import Replay Witness PatchEdges FreeWitness.

(** The full claim fails.  A delete that rewrites no file loses all files that
    share a manifest with a deleted file (see C06); the changes do not mention
    the lost rows. *)
Theorem C24_refuted_lossy : ∃ σ s cs rows_a rows_b,
  orderly separate_op init σ ∧ schema_at σ 0 = Some s ∧ unique_keys (s_pks s) rows_a
  ∧ result σ 0 (run_diff ex_env (VId 1) (VId 2) None) = Some (Ok cs)
  ∧ reads σ 0 (Some (VId 1)) rows_a ∧ reads σ 0 (Some (VId 2)) rows_b
  ∧ rows_b = [] ∧ length (apply_changes (s_pks s) rows_a cs) = 3.
Proof.
  set (cs := [ex_create; ex_two_files; CRun 0 ex_env ex_split (ODelete (ex_cmp OpLt "k" (SNum 3)))]).
  exists (ex_calls cs). do 4 eexists.
  assert (reachable (ex_calls cs)) by (apply reach; calls).
  split; [orderly_by ltac:(exact I)|]. split; [computed|]. split; cycle 1.
  { split; [computed|]. split; [by reads_by_computing|]. split; [by reads_by_computing|]. split; [done|computed]. }
  by apply (bool_decide_unpack _).
Qed.
Print Assumptions C24_refuted_lossy.
(** Deletions are reported by key, so with two rows of one key the other row is
    removed too. *)
Theorem C24_refuted_duplicates : ∃ σ s cs rows_a rows_b,
  orderly careful_op init σ ∧ schema_at σ 0 = Some s
  ∧ result σ 0 (run_diff ex_env (VId 1) (VId 2) None) = Some (Ok cs)
  ∧ reads σ 0 (Some (VId 1)) rows_a ∧ reads σ 0 (Some (VId 2)) rows_b
  ∧ length rows_b = 1 ∧ apply_changes (s_pks s) rows_a cs = [].
Proof.
  set (cs := [ex_create; ex_add [ex_row 1 "a" "A"; ex_row 1 "b" "B"];
              CRun 0 ex_env ex_large (ODelete (ex_cmp OpEq "v" (SStr "a")))]).
  exists (ex_calls cs). do 4 eexists.
  assert (reachable (ex_calls cs)) by (apply reach; calls).
  split; [orderly_by careful_tested|]. split; [computed|].
  split; [computed|]. split; [by reads_by_computing|]. split; [by reads_by_computing|]. split; [done|computed].
Qed.
Print Assumptions C24_refuted_duplicates.
(** A distributed delete that changes two files of one manifest reports the two
    deleted rows, but keeps the old version of each file (see C32). *)
Theorem C24_refuted_distributed : ∃ σ s cs rows_a rows_b,
  orderly any_op init σ ∧ schema_at σ 0 = Some s ∧ unique_keys (s_pks s) rows_a
  ∧ result σ 0 (run_diff ex_env (VId 1) (VId 2) None) = Some (Ok cs)
  ∧ reads σ 0 (Some (VId 1)) rows_a ∧ reads σ 0 (Some (VId 2)) rows_b
  ∧ length rows_b = 8 ∧ length (apply_changes (s_pks s) rows_a cs) = 3.
Proof.
  set (cs := [ex_create; ex_two_files;
              CRun 0 ex_env ex_opts (ORayDelete (EBin FnAnd (ex_cmp OpGe "k" (SNum 2)) (ex_cmp OpLe "k" (SNum 3))))]).
  exists (ex_calls cs). do 4 eexists.
  assert (reachable (ex_calls cs)) by (apply reach; calls).
  split; [orderly_by ltac:(exact I)|]. split; [computed|]. split; cycle 1.
  { split; [computed|]. split; [by reads_by_computing|]. split; [by reads_by_computing|]. split; [done|computed]. }
  by apply (bool_decide_unpack _).
Qed.
Print Assumptions C24_refuted_distributed.
(** The snapshot IDs of a removed branch are given out again.  Here two rows are
    added on a branch as snapshots 1 and 2, the branch is removed, and a write to
    main replaces snapshot 1.  Snapshot 2 is still readable, but its diff from
    snapshot 1 starts at other rows than snapshot 1 has now. *)
Theorem C24_refuted_removed : ∃ σ s cs rows_a rows_b,
  undisturbed careful_op init σ ∧ schema_at σ 0 = Some s ∧ unique_keys (s_pks s) rows_a
  ∧ result σ 0 (run_diff ex_env (VId 1) (VId 2) None) = Some (Ok cs)
  ∧ reads σ 0 (Some (VId 1)) rows_a ∧ reads σ 0 (Some (VId 2)) rows_b
  ∧ rows_b = [ex_row 1 "a" "A"; ex_row 2 "b" "B"]
  ∧ apply_changes (s_pks s) rows_a cs = [ex_row 9 "y" "Y"; ex_row 2 "b" "B"].
Proof.
  set (cs := [ex_create; CEdit 0 (EdAddBranch "b"); CEdit 0 (EdSetBranch "b");
              ex_add [ex_row 1 "a" "A"]; ex_add [ex_row 2 "b" "B"];
              CEdit 0 (EdSetBranch MAIN); CEdit 0 (EdRemoveBranch "b"); ex_add [ex_row 9 "y" "Y"]]).
  exists (ex_calls cs). do 4 eexists.
  assert (reachable (ex_calls cs)) by (apply reach; calls).
  split; [undisturbed_by careful_tested|]. split; [computed|]. split; cycle 1.
  { split; [computed|]. split; [by reads_by_computing|]. split; [by reads_by_computing|]. split; computed. }
  by apply (bool_decide_unpack _).
Qed.
Print Assumptions C24_refuted_removed.

(** Over the snapshots between [a] and [b], when in each of them keys are unique
    and the recorded row count is the number of rows (no delete lost rows, see
    C28), applying the changes to the rows of [a] gives the rows of [b].
    [keeping separate_op init σ]: [σ] is reached by local and distributed
    operations of concurrent handles, with crashes, tags and branches being edited
    through outdated handles too; nobody removes branches (see above), and
    distributed deletes leave the right rows (see C32). *)
Theorem C24_replay_partial : ∀ σ hid h s m E a b batch i j l cs rows_a rows_b,
  keeping separate_op init σ → y_handles σ !! hid = Some h → schema_at σ hid = Some s → stored_meta (w_fs (y_world σ)) = Some m →
  named m a = Some i → named m b = Some j → path_to m i j l →
  (∀ k sn rows, k ∈ i :: l → md_snaps m !! k = Some sn → reads σ hid (Some (VId k)) rows →
     unique_keys (s_pks s) rows ∧ st_rows (sn_stats sn) = Z.of_nat (length rows)) →
  result σ hid (run_diff E a b batch) = Some (Ok cs) →
  reads σ hid (Some (VId i)) rows_a → reads σ hid (Some (VId j)) rows_b →
  apply_changes (s_pks s) rows_a cs ≡ₚ rows_b.
Proof. exact replay_diff. Qed.
Print Assumptions C24_replay_partial.

(** If every operation keeps all files of the manifests it touches ([careful_op]),
    unique keys suffice. *)
Theorem C24_replay_unique_partial : ∀ σ hid h s m E a b batch i j l cs rows_a rows_b,
  keeping careful_op init σ → y_handles σ !! hid = Some h → schema_at σ hid = Some s → stored_meta (w_fs (y_world σ)) = Some m →
  named m a = Some i → named m b = Some j → path_to m i j l →
  (∀ k rows, k ∈ i :: l → reads σ hid (Some (VId k)) rows → unique_keys (s_pks s) rows) →
  result σ hid (run_diff E a b batch) = Some (Ok cs) →
  reads σ hid (Some (VId i)) rows_a → reads σ hid (Some (VId j)) rows_b →
  apply_changes (s_pks s) rows_a cs ≡ₚ rows_b.
Proof. exact replay_unique. Qed.
Print Assumptions C24_replay_unique_partial.

(** In particular when the dataset is modified by inserts, upserts and deletes,
    local or distributed, that lose no rows. *)
Theorem C24_replay_keyed_partial : ∀ σ hid h s m E a b batch i j l cs rows_a rows_b,
  orderly (fun s fs sn o => keyed_op s fs sn o ∧ careful_op s fs sn o) init σ →
  y_handles σ !! hid = Some h → schema_at σ hid = Some s → plain_keys s → stored_meta (w_fs (y_world σ)) = Some m →
  named m a = Some i → named m b = Some j → path_to m i j l →
  result σ hid (run_diff E a b batch) = Some (Ok cs) →
  reads σ hid (Some (VId i)) rows_a → reads σ hid (Some (VId j)) rows_b →
  apply_changes (s_pks s) rows_a cs ≡ₚ rows_b.
Proof. exact replay_keyed. Qed.
Print Assumptions C24_replay_keyed_partial.

Definition C24_calls : list call :=
  [ex_create; CRun 0 ex_env ex_opts (OInsert MInsert (concat ex_rows));
   CRun 0 ex_env ex_large (OInsert MUpsert [ex_row 4 "x" "X"; ex_row 9 "y" "Y"]);
   CRun 0 ex_env ex_opts (ODelete (ex_cmp OpEq "k" (SNum 1)))].
Definition C24_distributed : list call :=
  [ex_create; CRun 0 ex_env ex_opts (ORayInsert 2 MInsert (concat ex_rows));
   CRun 0 ex_env ex_large (ORayInsert 3 MUpsert [ex_row 4 "x" "X"; ex_row 9 "y" "Y"]);
   CRun 0 ex_env ex_opts (ORayDelete (ex_cmp OpEq "k" (SNum 1)))].
Example C24_case : ∃ h s m cs rows_a rows_b,
  orderly (fun s fs sn o => keyed_op s fs sn o ∧ careful_op s fs sn o) init (ex_calls C24_calls)
  ∧ y_handles (ex_calls C24_calls) !! 0 = Some h ∧ schema_at (ex_calls C24_calls) 0 = Some s ∧ plain_keys s
  ∧ stored_meta (w_fs (y_world (ex_calls C24_calls))) = Some m ∧ path_to m 1 3 [2; 3]%Z
  ∧ result (ex_calls C24_calls) 0 (run_diff ex_env (VId 1) (VId 3) None) = Some (Ok cs)
  ∧ (ch_type <$> cs) = [ChDelete; ChAdd; ChAdd; ChDelete]
  ∧ reads (ex_calls C24_calls) 0 (Some (VId 1)) rows_a ∧ reads (ex_calls C24_calls) 0 (Some (VId 3)) rows_b
  ∧ length rows_a = 5 ∧ length rows_b = 5.
Proof.
  assert (Hr : reachable (ex_calls C24_calls)) by (apply reach; calls).
  do 6 eexists. split; [orderly_by ltac:(split; [keyed_tested|careful_tested])|].
  split; [computed|]. split; [computed|]. split; [apply plain_keys_tested; computed|]. split; [computed|].
  split; [apply (path_tested _ _ _ [3; 2]%Z [0]%Z); [computed|done]|].
  split; [computed|]. split; [computed|]. split; [by reads_by_computing|]. split; [by reads_by_computing|]. split; computed.
Qed.
Example C24_case_distributed : ∃ h s m cs rows_a rows_b,
  orderly (fun s fs sn o => keyed_op s fs sn o ∧ careful_op s fs sn o) init (ex_calls C24_distributed)
  ∧ y_handles (ex_calls C24_distributed) !! 0 = Some h ∧ schema_at (ex_calls C24_distributed) 0 = Some s ∧ plain_keys s
  ∧ stored_meta (w_fs (y_world (ex_calls C24_distributed))) = Some m ∧ path_to m 1 3 [2; 3]%Z
  ∧ result (ex_calls C24_distributed) 0 (run_diff ex_env (VId 1) (VId 3) None) = Some (Ok cs)
  ∧ (ch_type <$> cs) = [ChDelete; ChAdd; ChAdd; ChDelete]
  ∧ reads (ex_calls C24_distributed) 0 (Some (VId 1)) rows_a ∧ reads (ex_calls C24_distributed) 0 (Some (VId 3)) rows_b
  ∧ length rows_a = 5 ∧ length rows_b = 5.
Proof.
  assert (Hr : reachable (ex_calls C24_distributed)) by (apply reach; calls).
  do 6 eexists. split; [orderly_by ltac:(split; [keyed_tested|careful_tested])|].
  split; [computed|]. split; [computed|]. split; [apply plain_keys_tested; computed|]. split; [computed|].
  split; [apply (path_tested _ _ _ [3; 2]%Z [0]%Z); [computed|done]|].
  split; [computed|]. split; [computed|]. split; [by reads_by_computing|]. split; [by reads_by_computing|]. split; computed.
Qed.
(** While a transaction is open, a stale handle adds a tag (snapshot 1 is lost) and
    another one adds snapshot 1 anew; the transaction is then committed on top of
    that, a snapshot it has not seen. *)
Definition C24_disturbed : list call :=
  [ex_create; CLoad 1; CLoad 2; CRun 0 ex_env ex_opts (OInsert MInsert [ex_row 1 "a" "A"]);
   CBegin 0 7; COp 7 ex_env ex_opts (OInsert MInsert [ex_row 5 "e" "E"]);
   CEdit 1 (EdAddTag "t" None); CRun 2 ex_env ex_opts (OInsert MInsert [ex_row 6 "f" "F"; ex_row 7 "g" "G"]); CCommit 7;
   CRun 2 ex_env ex_opts (ODelete (ex_cmp OpEq "k" (SNum 6)))].
Example C24_case_disturbed : ∃ h s m cs rows_a rows_b,
  keeping careful_op init (ex_calls C24_disturbed)
  ∧ y_handles (ex_calls C24_disturbed) !! 0 = Some h ∧ schema_at (ex_calls C24_disturbed) 0 = Some s
  ∧ stored_meta (w_fs (y_world (ex_calls C24_disturbed))) = Some m ∧ path_to m 1 3 [2; 3]%Z
  ∧ (∀ k rows, k ∈ [1; 2; 3]%Z → reads (ex_calls C24_disturbed) 0 (Some (VId k)) rows → unique_keys (s_pks s) rows)
  ∧ result (ex_calls C24_disturbed) 0 (run_diff ex_env (VId 1) (VId 3) None) = Some (Ok cs)
  ∧ (ch_type <$> cs) = [ChAdd; ChDelete]
  ∧ reads (ex_calls C24_disturbed) 0 (Some (VId 1)) rows_a ∧ reads (ex_calls C24_disturbed) 0 (Some (VId 3)) rows_b
  ∧ rows_a = [ex_row 6 "f" "F"; ex_row 7 "g" "G"] ∧ rows_b = [ex_row 5 "e" "E"; ex_row 7 "g" "G"].
Proof.
  assert (Hr : reachable (ex_calls C24_disturbed)) by (apply reach; calls).
  do 6 eexists. split; [keeping_by careful_tested|].
  split; [computed|]. split; [computed|]. split; [computed|].
  split; [apply (path_tested _ _ _ [3; 2]%Z [0]%Z); [computed|done]|].
  split; [apply unique_versions_tested; computed|].
  split; [computed|]. split; [computed|]. split; [by reads_by_computing|]. split; [by reads_by_computing|]. split; done.
Qed.
