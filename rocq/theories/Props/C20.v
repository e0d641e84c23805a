(** C20: crash atomicity. *)
From Verif.Spec Require Import Api Fixture Durable.
From Verif.Proofs Require Import Durable Witness.

(** If the process running any call dies after any number [k] of file system
    events (opening a file, finishing its content and renaming are separate
    events), whoever opens the storage finds the state before or after the
    call. *)
Theorem C20_crash_atomic : ∀ σ c k,
  reachable σ → env_ok σ c →
  same_storage (step σ (CCrash c k)) σ ∨ same_storage (step σ (CCrash c k)) (step σ c).
Proof. exact crash_atomic. Qed.
Print Assumptions C20_crash_atomic.

(** Loading after a crash succeeds if the storage existed before. *)
Theorem C20_load_succeeds : ∀ σ c,
  reachable σ → env_ok σ c → is_Some (stored_meta (w_fs (y_world σ))) →
  ∃ h, (load (y_world (step σ c))).2 = Ok h.
Proof. exact load_succeeds. Qed.
Print Assumptions C20_load_succeeds.

(** This append makes 17 events; after 16 of them the old rows are read, after
    17 the new ones. *)
Example C20_case : ∃ σ c,
  reachable σ ∧ env_ok σ c ∧ is_Some (stored_meta (w_fs (y_world σ)))
  ∧ length (w_log (y_world (step σ c))) = length (w_log (y_world σ)) + 17
  ∧ open_read (y_world (step σ (CCrash c 16))) ex_env None None = Ok (concat ex_rows)
  ∧ open_read (y_world (step σ (CCrash c 17))) ex_env None None = Ok (concat ex_rows ++ [ex_row 8 "h" "H"]).
Proof.
  exists (ex_calls [ex_create; ex_append]), (ex_add [ex_row 8 "h" "H"]).
  assert (reachable (ex_calls [ex_create; ex_append])) by (apply reach; calls).
  split_and!; [done|by intros ? _|by eexists; computed|by vm_compute|computed|computed].
Qed.
