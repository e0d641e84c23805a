(** C19: tag and branch edits never lose committed data. *)
From Verif.Spec Require Import Api Fixture Evolution.
From Verif.Proofs Require Import History Witness.

(** The full claim fails: an edit writes the metadata its handle holds, without
    reloading first (core/storage.py:255-313), so an edit through a handle
    opened before another handle's commit removes this commit. *)
Theorem C19_refuted : ∃ σ σ' d rows,
  reachable σ ∧ σ' = step σ (CEdit 1 d)
  ∧ reads σ 0 None rows ∧ rows ≠ [] ∧ reads σ 0 (Some (VId 1)) rows
  ∧ reads σ' 0 None [] ∧ result σ' 0 (run_read_all ex_env None None (Some (VId 1)) false None) = Some (Err (EUser UVersionNotFound)).
Proof.
  set (cs := [ex_create; CLoad 1; ex_append]). set (d := EdAddTag "t" None).
  exists (ex_calls cs), (step (ex_calls cs) (CEdit 1 d)), d, (concat ex_rows).
  assert (reachable (ex_calls cs)) by (apply reach; calls).
  assert (reachable (step (ex_calls cs) (CEdit 1 d))) by (apply (reach_from (ex_calls cs) [CEdit 1 d]); [done|calls]).
  split_and!; [done|done|by reads_by_computing|done|by reads_by_computing|by reads_by_computing|computed].
Qed.
Print Assumptions C19_refuted.

(** Through an up-to-date handle an edit keeps all snapshots, the head of main,
    and every reference but the one it removes. *)
Theorem C19_edits_keep_partial : ∀ σ hid h d m,
  reachable σ → y_handles σ !! hid = Some h → up_to_date σ hid → stored_meta (w_fs (y_world σ)) = Some m →
  ∃ m', stored_meta (w_fs (y_world (step σ (CEdit hid d)))) = Some m'
    ∧ md_snaps m' = md_snaps m ∧ md_current m' = md_current m
    ∧ ∀ n r, md_refs m !! n = Some r →
        match d with EdRemoveTag n' | EdRemoveBranch n' => n' ≠ n | _ => True end → md_refs m' !! n = Some r.
Proof. exact edit_keeps. Qed.
Print Assumptions C19_edits_keep_partial.

Example C19_case : ∃ σ h m,
  reachable σ ∧ y_handles σ !! 1 = Some h ∧ up_to_date σ 1 ∧ stored_meta (w_fs (y_world σ)) = Some m
  ∧ md_refs m !! "b" = Some (SRef 2 RBranch) ∧ md_refs m !! "t" = Some (SRef 1 RTag)
  ∧ result σ 1 (run_edit (EdRemoveTag "t")) = Some (Ok tt).
Proof.
  set (cs := [ex_create; ex_append; CEdit 0 (EdAddTag "t" None); CEdit 0 (EdAddBranch "b"); CEdit 0 (EdSetBranch "b");
    ex_add [ex_row 8 "h" "H"]; CLoad 1]).
  exists (ex_calls cs). do 2 eexists.
  split_and!; [apply reach; calls|computed|eapply up_to_date_tested; computed|computed|done|done|computed].
Qed.
