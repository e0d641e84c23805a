(** C46: data files are never modified. *)
From Verif.Spec Require Import Api Fixture.
From Verif.Proofs Require Import Durable Witness.

(** Over any history (crashes included), every file of the storage except those
    holding the entry point stays, with its content. *)
Theorem C46_files_immutable : ∀ σ σ' p f,
  reachable σ → history env_ok σ σ' → w_fs (y_world σ) !! p = Some f → (∀ q, f ≠ FEntry q) →
  w_fs (y_world σ') !! p = Some f.
Proof. exact files_kept_history. Qed.
Print Assumptions C46_files_immutable.

(** There are files of all kinds, and histories in which much happens. *)
Example C46_case : ∃ σ σ',
  reachable σ ∧ history env_ok σ σ'
  ∧ length (map_to_list (w_fs (y_world σ))) = 9
  ∧ length (map_to_list (w_fs (y_world σ'))) = 19.
Proof.
  exists (ex_calls [ex_create; ex_append]).
  exists (foldl step (ex_calls [ex_create; ex_append])
    [CRun 0 ex_env ex_opts (ODelete (ex_cmp OpEq "k" (SNum 2))); CEdit 0 (EdAddBranch "b"); CCrash ex_append 9]).
  assert (reachable (ex_calls [ex_create; ex_append])) by (apply reach; calls).
  split_and!; [done| |vm_compute; reflexivity|vm_compute; reflexivity].
  cbn [foldl]. apply HistStep; [apply HistStep; [apply HistStep; [constructor|]|]|]; calls; by intros ??.
Qed.
