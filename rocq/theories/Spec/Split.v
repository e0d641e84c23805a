(** Transaction.commit in two parts, between which other processes act. *)
From Verif.Spec Require Export Serial.

(** Transaction.commit after its check (core/storage.py:574-577). *)
Definition txn_write (x : txn) (p : patch) : H job := commit p (x_branch x) ;; ret (JSucceeded (pa_stats p)).
(** In [σ] transaction [tid] of handle [hid], which recorded [x] when it began
    and produced [p], passes the check of its commit; other processes then
    act until [σ']. *)
Definition checked (tid hid : nat) (x : txn) (p : patch) (σ σ' : sys) : Prop :=
  y_txns σ !! tid = Some (Pending hid x (Some (Some p)))
  ∧ result σ hid (txn_check x (Some p)) = Some (Ok None)
  ∧ history env_ok (after σ hid (txn_check x (Some p))) σ'
  ∧ y_handles σ' !! hid = y_handles (after σ hid (txn_check x (Some p))) !! hid.
