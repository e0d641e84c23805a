(** C16: concurrent transactions on a branch: the first committer wins. *)
From Verif.Spec Require Import Api Fixture Serial.
From Verif.Proofs Require Import Serial Witness.

(** Handle [hid] starts a transaction; somebody moves the head of its branch;
    then its commit is FAILED and the storage stays as it is.  The calls in
    between are arbitrary starts, operations and commits, and also edits of tags
    and branches as long as the transaction's branch is not removed. *)
Theorem C16_later_committer_fails : ∀ σ0 σ1 σ2 hid h x p m0,
  reachable σ0 → stored_meta (w_fs (y_world σ0)) = Some m0 → is_branch m0 (x_branch x) →
  result σ0 hid txn_begin = Some (Ok x) →
  keeping (x_branch x) anything σ0 σ1 → head σ1 (x_branch x) ≠ head σ0 (x_branch x) →
  keeping (x_branch x) anything σ1 σ2 → y_handles σ2 !! hid = Some h →
  commit_outcome σ2 hid x p = Some (Ok JFailed) ∧ same_storage (after_commit σ2 hid x p) σ2.
Proof. exact txn_late_fails. Qed.
Print Assumptions C16_later_committer_fails.

(** If a transaction succeeds, the head it replaces is the one it started from,
    and the rows change as if its operation ran at the moment of its commit, on
    the rows [before] that are read at this moment: the order of the commits is
    an equivalent serial order. *)
Theorem C16_commits_are_serial : ∀ ok hid tid x E fo o p σ0 σ s st before,
  reachable σ0 → running ok hid tid x E fo o p σ0 σ → schema_at σ hid = Some s → reads σ hid None before →
  commit_outcome σ hid x p = Some (Ok (JSucceeded st)) →
  head σ (x_branch x) = head σ0 (x_branch x)
  ∧ ∃ rows, reads (after_commit σ hid x p) hid None rows
      ∧ effect s (w_fs (y_world σ)) (layout σ hid) o before rows
  ∧ ∃ m sn, stored_meta (w_fs (y_world (after_commit σ hid x p))) = Some m
      ∧ head_snapshot m (x_branch x) = Some sn ∧ sn_parent sn = head σ0 (x_branch x).
Proof. exact txn_serial. Qed.
Print Assumptions C16_commits_are_serial.

(** Handle 0 starts, handle 1 appends, handle 0 runs its operation and loses. *)
Definition C16_op : op := ODelete (ex_cmp OpEq "k" (SNum 2)).
Definition C16_before : sys := ex_calls [ex_create; ex_append; CLoad 1].
Definition C16_other : list call := [CRun 1 ex_env ex_opts (OAppend [[ex_row 8 "h" "H"]])].
Definition C16_distributed : op := ORayInsert 2 MUpsert [ex_row 2 "x" "X"; ex_row 9 "y" "Y"; ex_row 10 "z" "Z"].
Definition C16_moved : sys := foldl step C16_before (CBegin 0 0 :: C16_other).
Definition C16_late : sys := foldl step C16_moved [COp 0 ex_env ex_opts C16_op].
Example C16_case_loser : ∃ h m0,
  reachable C16_before ∧ stored_meta (w_fs (y_world C16_before)) = Some m0 ∧ is_branch m0 MAIN
  ∧ result C16_before 0 txn_begin = Some (Ok (Txn MAIN 1))
  ∧ keeping MAIN anything C16_before C16_moved ∧ head C16_moved MAIN ≠ head C16_before MAIN
  ∧ keeping MAIN anything C16_moved C16_late ∧ y_handles C16_late !! 0 = Some h
  ∧ y_txns C16_late !! 0 ≠ None.
Proof.
  do 2 eexists.
  split_and!; [apply reach; calls|computed|by left|computed|unfold C16_moved; keeping_by_computing|by vm_compute
    |unfold C16_late; keeping_by_computing|computed|by vm_compute].
Qed.
(** Handle 0 starts and runs its delete, handle 1 appends to another branch,
    handle 0 commits. *)
Definition C16_branch : list call := [CEdit 1 (EdAddBranch "b"); CEdit 1 (EdSetBranch "b")] ++ C16_other.
Definition C16_done : sys := step (step C16_before (CBegin 0 0)) (COp 0 ex_env ex_opts C16_op).
Definition C16_quiet : sys := foldl step C16_done C16_branch.
Definition C16_patch : option patch :=
  match y_txns C16_quiet !! 0 with Some (Pending _ _ (Some p)) => p | _ => None end.
Example C16_case_winner : ∃ x s st,
  reachable C16_before ∧ running (elsewhere (x_branch x)) 0 0 x ex_env ex_opts C16_op C16_patch C16_before C16_quiet
  ∧ schema_at C16_quiet 0 = Some s
  ∧ reads C16_quiet 0 None (concat ex_rows) ∧ commit_outcome C16_quiet 0 x C16_patch = Some (Ok (JSucceeded st))
  ∧ reads (after_commit C16_quiet 0 x C16_patch) 0 None [ex_row 1 "a" "A"; ex_row 3 "c" "C"; ex_row 4 "d" "D"; ex_row 5 "e" "E"]
  ∧ head C16_quiet "b" = Some 2%Z ∧ head (after_commit C16_quiet 0 x C16_patch) "b" = Some 2%Z.
Proof.
  assert (reachable C16_before) by (apply reach; calls).
  assert (reachable C16_quiet) by (unfold C16_quiet; apply reach_from; [apply HistStep; [apply HistStep; [done|exact I]|by intros ? ? _ _]|calls]).
  assert (reachable (step C16_quiet (CCommit 0))) by (apply HistStep; [assumption|exact I]).
  exists (Txn MAIN 1). do 2 eexists.
  split_and!; [done| |computed|by reads_by_computing|computed| |computed|computed].
  - constructor; [computed|by left|]. exists (step C16_before (CBegin 0 0)).
    split_and!.
    + constructor.
    + computed.
    + eexists. split; [computed|]. computed.
    + intros ? ? _ _. exact I.
    + computed.
    + fold C16_done. unfold C16_quiet. keeping_by_computing.
    + computed.
    + eexists. split; [computed|]. computed.
  - apply (reads_after_commit C16_quiet 0); [computed|]. by reads_by_computing.
Qed.
(** The same with a distributed upsert. *)
Definition C16_ray_done : sys := step (step C16_before (CBegin 0 0)) (COp 0 ex_env ex_opts C16_distributed).
Definition C16_ray_quiet : sys := foldl step C16_ray_done C16_branch.
Definition C16_ray_patch : option patch :=
  match y_txns C16_ray_quiet !! 0 with Some (Pending _ _ (Some p)) => p | _ => None end.
Example C16_case_distributed : ∃ x s st rows,
  reachable C16_before
  ∧ running (elsewhere (x_branch x)) 0 0 x ex_env ex_opts C16_distributed C16_ray_patch C16_before C16_ray_quiet
  ∧ schema_at C16_ray_quiet 0 = Some s
  ∧ reads C16_ray_quiet 0 None (concat ex_rows)
  ∧ commit_outcome C16_ray_quiet 0 x C16_ray_patch = Some (Ok (JSucceeded st))
  ∧ reads (after_commit C16_ray_quiet 0 x C16_ray_patch) 0 None rows ∧ length rows = 7.
Proof.
  assert (reachable C16_before) by (apply reach; calls).
  assert (reachable C16_ray_quiet).
  { unfold C16_ray_quiet. apply reach_from; [|calls].
    apply HistStep; [apply HistStep; [done|exact I]|]. intros ? ? _ _. by apply Nat.leb_le. }
  assert (reachable (step C16_ray_quiet (CCommit 0))) by (apply HistStep; [assumption|exact I]).
  exists (Txn MAIN 1). do 3 eexists.
  split_and!; [done| |computed|by reads_by_computing|computed| |].
  - constructor; [computed|by left|]. exists (step C16_before (CBegin 0 0)).
    split_and!.
    + constructor.
    + computed.
    + eexists. split; [computed|]. computed.
    + intros ? ? _ _. by apply Nat.leb_le.
    + computed.
    + fold C16_ray_done. unfold C16_ray_quiet. keeping_by_computing.
    + computed.
    + eexists. split; [computed|]. computed.
  - apply (reads_after_commit C16_ray_quiet 0); [computed|]. by reads_by_computing.
  - done.
Qed.
