(** C47: new tags and branches start where the user stands. *)
From Verif.Spec Require Import Api Fixture Layout Changes Evolution.
From Verif.Proofs Require Import Starts Witness.

(** The full claim fails on every branch but main: a new reference without a
    snapshot ID points at current_snapshot_id of the metadata, the head of main
    (core/storage.py:260-261). *)
Theorem C47_refuted : ∃ σ h rows, reachable σ ∧ y_handles σ !! 0 = Some h ∧ h_branch h = "b" ∧ up_to_date σ 0
  ∧ reads σ 0 None rows ∧ length rows = 6
  ∧ result σ 0 (run_edit (EdAddBranch "c")) = Some (Ok tt)
  ∧ reads (after σ 0 (run_edit (EdAddBranch "c"))) 0 (Some (VName "c")) (concat ex_rows).
Proof.
  set (cs := [ex_create; ex_append; CEdit 0 (EdAddBranch "b"); CEdit 0 (EdSetBranch "b"); ex_add [ex_row 6 "f" "F"]; CReload 0]).
  exists (ex_calls cs). do 2 eexists.
  assert (reachable (ex_calls cs)) by (apply reach; calls).
  assert (reachable (after (ex_calls cs) 0 (run_edit (EdAddBranch "c")))) by (by apply reach_edit).
  split; [done|]. split; [computed|]. split; [done|]. split; [eapply up_to_date_tested; computed|].
  split; [by reads_by_computing|]. split; [done|]. split; [computed|by reads_by_computing].
Qed.
Print Assumptions C47_refuted.

(** On main, through an up-to-date handle, reading the new tag or branch gives
    what a read gave before. *)
Theorem C47_main_partial : ∀ σ hid h d n rows,
  reachable σ → y_handles σ !! hid = Some h → h_branch h = MAIN → up_to_date σ hid → d = EdAddBranch n ∨ d = EdAddTag n None →
  result σ hid (run_edit d) = Some (Ok tt) → reads σ hid None rows →
  reads (after σ hid (run_edit d)) hid (Some (VName n)) rows.
Proof. exact starts_at_head. Qed.
Print Assumptions C47_main_partial.

(** In all cases the reference points at the given snapshot or, without one, at
    the head of main as the handle knows it. *)
Theorem C47_points_at_partial : ∀ σ hid h d n sid,
  reachable σ → y_handles σ !! hid = Some h → (d = EdAddBranch n ∧ sid = None) ∨ d = EdAddTag n sid →
  result σ hid (run_edit d) = Some (Ok tt) →
  ∃ m', stored_meta (w_fs (y_world (after σ hid (run_edit d)))) = Some m'
    ∧ named m' (VName n) = Some (match sid with Some i => i | None => md_current (h_meta h) end).
Proof. exact starts_at. Qed.
Print Assumptions C47_points_at_partial.

Example C47_case : ∃ σ h, reachable σ ∧ y_handles σ !! 0 = Some h ∧ h_branch h = MAIN ∧ up_to_date σ 0
  ∧ result σ 0 (run_edit (EdAddBranch "c")) = Some (Ok tt) ∧ reads σ 0 None (concat ex_rows).
Proof.
  set (cs := [ex_create; ex_append; CEdit 0 (EdAddBranch "b")]). exists (ex_calls cs). eexists.
  assert (reachable (ex_calls cs)) by (apply reach; calls).
  split; [done|]. split; [computed|]. split; [done|]. split; [eapply up_to_date_tested; computed|].
  split; [computed|by reads_by_computing].
Qed.
