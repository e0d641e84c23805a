(** C01: append adds exactly the input rows. *)
From Verif.Spec Require Import Api Fixture.
From Verif.Proofs Require Import Adds Witness.

Theorem C01_append_adds_input : ∀ σ hid s E fo batches st before,
  reachable σ → schema_at σ hid = Some s → reads σ hid None before →
  result σ hid (run_append E fo batches) = Some (Ok (JSucceeded st)) →
  reads (after σ hid (run_append E fo batches)) hid None (before ++ (show s <$> concat batches)).
Proof. exact append_shows. Qed.
Print Assumptions C01_append_adds_input.

Example C01_case : ∃ σ s st before,
  reachable σ ∧ schema_at σ 0 = Some s ∧ reads σ 0 None before ∧ length before = 5
  ∧ result σ 0 (run_append ex_env ex_opts ex_rows) = Some (Ok (JSucceeded st)).
Proof.
  exists (ex_calls [ex_create; ex_append]).
  assert (reachable (ex_calls [ex_create; ex_append])) by (apply reach; calls).
  do 3 eexists. split_and!; [done|vm_compute; reflexivity|reads_by_computing; done|done|vm_compute; reflexivity].
Qed.
