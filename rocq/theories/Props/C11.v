(** C11: the job outcome tells what happened to the stored state. *)
From Verif.Spec Require Import Api Fixture Layout Evolution Orderly.
From Verif.Proofs Require Import Calls Adds History NewId Witness.

(** The full claim fails: after a branch was removed the ID of the next snapshot
    can be that of a commit on the removed branch, so that a call that succeeds
    adds no snapshot but replaces one (core/storage.py:88-90, 495-497). *)
Definition C11_removed : list call :=
  [ex_create; CEdit 0 (EdAddBranch "b"); CEdit 0 (EdSetBranch "b"); ex_append; CEdit 0 (EdSetBranch MAIN);
   CEdit 0 (EdRemoveBranch "b")].
Theorem C11_refuted : ∃ σ st m m' i old new,
  reachable σ
  ∧ result σ 0 (run_op ex_env ex_opts (OAppend [[ex_row 8 "h" "H"]])) = Some (Ok (JSucceeded st))
  ∧ stored_meta (w_fs (y_world σ)) = Some m
  ∧ stored_meta (w_fs (y_world (after σ 0 (run_op ex_env ex_opts (OAppend [[ex_row 8 "h" "H"]]))))) = Some m'
  ∧ size (md_snaps m') = size (md_snaps m)
  ∧ md_snaps m !! i = Some old ∧ md_snaps m' !! i = Some new ∧ new ≠ old.
Proof.
  exists (ex_calls C11_removed).
  assert (reachable (ex_calls C11_removed)) by (apply reach; calls).
  do 3 eexists. exists 1%Z. do 2 eexists.
  split_and!; [done|computed|computed|computed|by vm_compute|computed|computed|by vm_compute].
Qed.
Print Assumptions C11_refuted.

(** A call that succeeds stores one snapshot, a child of the head of the
    handle's branch with an ID above all heads, and moves this branch to it.
    Other branches, tags and the schema stay.  Missing from the full claim: the
    new ID may be that of a snapshot that no reference reaches any more, which
    is then replaced (see C12). *)
Theorem C11_success_partial : ∀ σ hid E fo o st,
  reachable σ → env_ok σ (CRun hid E fo o) →
  result σ hid (run_op E fo o) = Some (Ok (JSucceeded st)) →
  ∃ h m m' base sn,
    y_handles σ !! hid = Some h
    ∧ stored_meta (w_fs (y_world σ)) = Some m
    ∧ stored_meta (w_fs (y_world (after σ hid (run_op E fo o)))) = Some m'
    ∧ head_snapshot m (h_branch h) = Some base
    ∧ sn_parent sn = Some (sn_id base)
    ∧ (∀ b i, head_id m b = Some i → (i < sn_id sn)%Z)
    ∧ md_snaps m' = <[sn_id sn := sn]> (md_snaps m)
    ∧ head_id m' (h_branch h) = Some (sn_id sn)
    ∧ (∀ b, b ≠ h_branch h → head_id m' b = head_id m b)
    ∧ md_schema m' = md_schema m.
Proof. exact success_metadata. Qed.
Print Assumptions C11_success_partial.

(** As long as no branch is removed, the snapshot is a new one. *)
Theorem C11_success_new_partial : ∀ σ hid E fo o st,
  branch_keeping init σ → env_ok σ (CRun hid E fo o) →
  result σ hid (run_op E fo o) = Some (Ok (JSucceeded st)) →
  ∃ m m' sn,
    stored_meta (w_fs (y_world σ)) = Some m
    ∧ stored_meta (w_fs (y_world (after σ hid (run_op E fo o)))) = Some m'
    ∧ md_snaps m !! sn_id sn = None
    ∧ md_snaps m' = <[sn_id sn := sn]> (md_snaps m).
Proof. exact success_new. Qed.
Print Assumptions C11_success_new_partial.

(** Any other outcome (skipped, failed, or an exception) leaves the metadata
    and every version, read through any handle, as they were. *)
Theorem C11_no_success_no_change : ∀ σ hid E fo o r,
  reachable σ → env_ok σ (CRun hid E fo o) →
  result σ hid (run_op E fo o) = Some r → (∀ st, r ≠ Ok (JSucceeded st)) →
  stored_meta (w_fs (y_world (after σ hid (run_op E fo o)))) = stored_meta (w_fs (y_world σ))
  ∧ ∀ hid' v E' b, result (after σ hid (run_op E fo o)) hid' (run_read_all E' None None v false b)
                   = result σ hid' (run_read_all E' None None v false b).
Proof. exact unsuccessful_unchanged. Qed.
Print Assumptions C11_no_success_no_change.

Example C11_case : ∃ σ st,
  reachable σ
  ∧ result σ 0 (run_op ex_env ex_opts (ODelete (ex_cmp OpEq "k" (SNum 2)))) = Some (Ok (JSucceeded st))
  ∧ result σ 0 (run_op ex_env ex_opts (OInsert MInsert [ex_row 2 "x" "X"])) = Some (Ok JFailed)
  ∧ result σ 0 (run_op ex_env ex_opts (OAppend [])) = Some (Ok JSkipped)
  ∧ (∃ msg, result σ 0 (run_op ex_env ex_opts (OAppend [[[("k", CVal (SNum 1))]]])) = Some (Err (EOther msg))).
Proof.
  exists (ex_calls [ex_create; ex_append]).
  assert (reachable (ex_calls [ex_create; ex_append])) by (apply reach; calls).
  eexists. split_and!; [done|computed|computed|computed|eexists; computed].
Qed.

Definition C11_kept : list call :=
  [ex_create; ex_append; CLoad 1; CEdit 0 (EdAddBranch "b"); CEdit 0 (EdSetBranch "b"); ex_add [ex_row 8 "h" "H"]; CEdit 0 (EdSetBranch MAIN);
   CEdit 1 (EdAddTag "t" None)].
Example C11_case_new : ∃ σ st,
  branch_keeping init σ
  ∧ result σ 0 (run_op ex_env ex_opts (ODelete (ex_cmp OpEq "k" (SNum 2)))) = Some (Ok (JSucceeded st)).
Proof.
  exists (ex_calls C11_kept).
  assert (reachable (ex_calls C11_kept)) by (apply reach; calls).
  eexists. split_and!; [branch_keeping_by_computing|computed].
Qed.
