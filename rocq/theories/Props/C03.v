(** C03: append bookkeeping agrees with the files written. *)
From Verif.Spec Require Import Api Fixture Accounts.
From Verif.Proofs Require Import AppendFiles Witness.

(** For all batches and all size limits, an append that succeeds produces no
    patch exactly if there are no rows, and otherwise a patch that accounts for
    the rows and the files written. *)
Theorem C03_append_accounts : ∀ σ E O s batches w' op,
  reachable σ → append_op E O s batches (y_world σ) = (w', Ok op) →
  (op = None ↔ concat batches = []) ∧ ∀ p, op = Some p → accounts (y_world σ) w' (length (concat batches)) p.
Proof. exact append_accounted. Qed.
Print Assumptions C03_append_accounts.

(** Appending to a dataset that has files already; limits force several index
    and record files. *)
Definition C03_state : sys := ex_calls [ex_create; ex_append].
Definition C03_schema : schema := default (Schema [] [] []) (schema_at C03_state 0).
Definition C03_run (batches : list (list row)) : world * res (option patch) :=
  append_op ex_env ex_split C03_schema batches (y_world C03_state).
Definition C03_patch : patch :=
  match (C03_run ex_rows).2 with Ok (Some p) => p | _ => Patch [] [] [] None stats0 end.
Example C03_case : reachable C03_state ∧ schema_at C03_state 0 = Some C03_schema
  ∧ append_op ex_env ex_split C03_schema ex_rows (y_world C03_state) = ((C03_run ex_rows).1, Ok (Some C03_patch))
  ∧ st_rows (pa_stats C03_patch) = 5%Z ∧ length (pa_add_rec C03_patch) = 1
  ∧ match pa_add_idx C03_patch with
    | [q] => match w_fs (C03_run ex_rows).1 !! q with Some (FIdxMan ms) => mr_rows <$> ms = [2; 3]%Z | _ => False end
    | _ => False
    end.
Proof.
  split; [apply reach; calls|]. split; [computed|]. split.
  - change (C03_run ex_rows = ((C03_run ex_rows).1, Ok (Some C03_patch))).
    apply pair_tested. computed.
  - split; [computed|]. split; computed.
Qed.
Example C03_empty_case : append_op ex_env ex_split C03_schema [[]; []] (y_world C03_state) = ((C03_run [[]; []]).1, Ok None).
Proof.
  change (C03_run [[]; []] = ((C03_run [[]; []]).1, Ok None)).
  apply pair_tested. computed.
Qed.
