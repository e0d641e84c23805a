(** C07: delete keeps rows on which the filter is null. *)
From Verif.Spec Require Import Api Fixture Pruning Layout.
From Verif.Proofs Require Import Reads Witness.

(** The claim is false: with keys 1 and 2 in one file and a null value in the
    row of key 2, [delete(v = 'a')] removes both rows, though a read with this
    filter returns the first row only. *)
Theorem C07_refuted : ∃ σ e st before r,
  reachable σ ∧ reads σ 0 None before ∧ r ∈ before
  ∧ eval (row_look r) e = None
  ∧ (∀ E b, result σ 0 (run_read_all E (Some e) None None false b)
            = Some (Ok (filter (fun r' => r' ≠ r) before)))
  ∧ result σ 0 (run_delete ex_env ex_opts e) = Some (Ok (JSucceeded st))
  ∧ reads (after σ 0 (run_delete ex_env ex_opts e)) 0 None [].
Proof.
  set (r2 := [("k", CVal (SNum 2)); ("v", CNull); ("r", CVal (SStr "B"))]).
  set (cs := [ex_create; ex_add [ex_row 1 "a" "A"; r2]]).
  set (e := ex_cmp OpEq "v" (SStr "a")).
  assert (reachable (ex_calls cs)) by (apply reach; calls).
  assert (reachable (after (ex_calls cs) 0 (run_delete ex_env ex_opts e))).
  { apply (reach (cs ++ [CRun 0 ex_env ex_opts (ODelete e)])). calls. }
  exists (ex_calls cs), e. eexists _, [ex_row 1 "a" "A"; r2], r2.
  assert (reads (ex_calls cs) 0 None [ex_row 1 "a" "A"; r2]) by (by reads_by_computing).
  split_and!; [done|done|right; left|done| |computed|by reads_by_computing].
  intros E b. eapply eq_trans; [eapply filtered_read|]; [done|computed|done|safe|can_build|apply proper_no_nan; proper|].
  done.
Qed.
Print Assumptions C07_refuted.
