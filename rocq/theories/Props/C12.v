(** C12: committed snapshots are immutable. *)
From Verif.Spec Require Import Api Fixture Evolution Orderly.
From Verif.Proofs Require Import History NewId Witness.

(** The full claim fails.  The id of the next snapshot is one above the head of
    main and the ids of all references (core/storage.py:88-90, 495-497), so
    after [remove_branch] the ids of the commits made on that branch are given
    out again, and the old snapshot is overwritten in the metadata. *)
Theorem C12_refuted : ∃ σ σ' hid i rows rows',
  reachable σ ∧ fresh_history (fun _ => True) σ σ'
  ∧ reads σ hid (Some (VId i)) rows ∧ reads σ' hid (Some (VId i)) rows' ∧ rows ≠ rows'.
Proof.
  set (cs := [ex_create; CEdit 0 (EdAddBranch "b"); CEdit 0 (EdSetBranch "b"); ex_append; CEdit 0 (EdSetBranch MAIN)]).
  set (ds := [CEdit 0 (EdRemoveBranch "b"); ex_add [ex_row 8 "h" "H"]]).
  exists (ex_calls cs), (foldl step (ex_calls cs) ds), 0, 1%Z, (concat ex_rows), [ex_row 8 "h" "H"].
  assert (reachable (ex_calls cs)) by (apply reach; calls).
  assert (reachable (foldl step (ex_calls cs) ds)) by (apply reach_from; [done|calls]).
  split_and!; [done|fresh_by_computing|by reads_by_computing|by reads_by_computing|done].
Qed.
Print Assumptions C12_refuted.

(** As long as no branch was removed, and from then on tags and branches are
    edited through up-to-date handles and no branch is removed, every committed
    snapshot keeps its rows. *)
Theorem C12_immutable_partial : ∀ σ σ' hid hid' h' i rows,
  branch_keeping init σ → fresh_history keeps_branches σ σ' →
  y_handles σ' !! hid' = Some h' →
  reads σ hid (Some (VId i)) rows → reads σ' hid' (Some (VId i)) rows.
Proof. exact snapshots_immutable. Qed.
Print Assumptions C12_immutable_partial.

(** Even if branches are removed, snapshots not newer than the head of main
    keep their rows. *)
Theorem C12_main_immutable_partial : ∀ σ σ' hid hid' h' m i rows,
  reachable σ → stored_meta (w_fs (y_world σ)) = Some m → (i ≤ md_current m)%Z →
  fresh_history (fun _ => True) σ σ' → y_handles σ' !! hid' = Some h' →
  reads σ hid (Some (VId i)) rows → reads σ' hid' (Some (VId i)) rows.
Proof. exact main_immutable. Qed.
Print Assumptions C12_main_immutable_partial.

(** Snapshot 1 (five rows) is read after a delete, commits on a branch, a tag
    and (second case) the removal of the branch. *)
Definition C12_first : list call := [ex_create; ex_append].
Definition C12_then : list call :=
  [CRun 0 ex_env ex_opts (ODelete (ex_cmp OpEq "k" (SNum 2))); CEdit 0 (EdAddBranch "b"); CEdit 0 (EdAddTag "t" (Some 1%Z));
   CLoad 1; CEdit 1 (EdSetBranch "b"); CRun 1 ex_env ex_opts (OInsert MUpsert [ex_row 3 "x" "X"])].
Definition C12_removed : list call := C12_then ++ [CReload 0; CEdit 0 (EdRemoveBranch "b"); ex_add [ex_row 8 "h" "H"]].
Example C12_case : ∃ σ σ' h',
  branch_keeping init σ ∧ fresh_history keeps_branches σ σ' ∧ y_handles σ' !! 1 = Some h'
  ∧ reads σ 0 (Some (VId 1)) (concat ex_rows) ∧ reads σ' 1 None [ex_row 1 "a" "A"; ex_row 4 "d" "D"; ex_row 5 "e" "E"; ex_row 3 "x" "X"].
Proof.
  exists (ex_calls C12_first), (foldl step (ex_calls C12_first) C12_then).
  assert (reachable (ex_calls C12_first)) by (apply reach; calls).
  assert (reachable (foldl step (ex_calls C12_first) C12_then)) by (apply reach_from; [done|calls]).
  eexists. split_and!; [branch_keeping_by_computing|fresh_by_computing|computed|by reads_by_computing|by reads_by_computing].
Qed.
Example C12_case_removed : ∃ σ σ' h' m,
  reachable σ ∧ stored_meta (w_fs (y_world σ)) = Some m ∧ (1 ≤ md_current m)%Z
  ∧ fresh_history (fun _ => True) σ σ' ∧ y_handles σ' !! 1 = Some h' ∧ reads σ 0 (Some (VId 1)) (concat ex_rows).
Proof.
  exists (ex_calls C12_first), (foldl step (ex_calls C12_first) C12_removed).
  assert (reachable (ex_calls C12_first)) by (apply reach; calls).
  do 2 eexists. split_and!; [done|computed|by vm_compute|fresh_by_computing|computed|by reads_by_computing].
Qed.
