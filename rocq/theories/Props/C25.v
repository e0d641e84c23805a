(** C25: diff is available for every committed snapshot. *)
From Verif.Spec Require Import Api Fixture Changes Orderly Free.
From Verif.Proofs Require Import Replay PatchFacts Witness FreeWitness.

(** The full claim fails: append_parquet commits a snapshot without a change
    log (core/loaders/parquet.py:49-98), and reading the changes of this
    snapshot raises. *)
Theorem C25_refuted : ∃ σ st m msg,
  orderly any_op init σ
  ∧ result σ 0 (run_op ex_env ex_large (OParquet [PExt "x"])) = Some (Ok (JSucceeded st))
  ∧ stored_meta (w_fs (y_world (after σ 0 (run_op ex_env ex_large (OParquet [PExt "x"]))))) = Some m ∧ path_to m 0 1 [1%Z]
  ∧ result (after σ 0 (run_op ex_env ex_large (OParquet [PExt "x"]))) 0 (run_diff ex_env (VId 0) (VId 1) None)
    = Some (Err (EOther msg)).
Proof.
  set (cs := [ex_flat; ex_parquet "x" [ex_flat_row 1 "a"; ex_flat_row 2 "b"]]).
  exists (ex_calls cs). do 3 eexists. split; [orderly_by ltac:(exact I)|].
  split; [computed|]. split; [computed|]. split; [apply (path_tested _ _ _ [1%Z] []); [computed|done]|computed].
Qed.
Print Assumptions C25_refuted.

(** When append_parquet is never used, diff between an ancestor and a
    descendant always returns, in every history ([limited]: branches may be
    removed and edits go through outdated handles, also while transactions are
    open). *)
Theorem C25_diff_available_partial : ∀ σ hid h m E a b batch i j l,
  limited not_parquet init σ → y_handles σ !! hid = Some h → stored_meta (w_fs (y_world σ)) = Some m →
  named m a = Some i → named m b = Some j → path_to m i j l →
  ∃ cs, result σ hid (run_diff E a b batch) = Some (Ok cs).
Proof. exact diff_logged_free. Qed.
Print Assumptions C25_diff_available_partial.

(** In any history diff returns when all snapshots between the two versions
    have a change log. *)
Theorem C25_diff_with_logs_partial : ∀ σ hid h m E a b batch i j l,
  reachable σ → y_handles σ !! hid = Some h → stored_meta (w_fs (y_world σ)) = Some m →
  named m a = Some i → named m b = Some j → path_to m i j l →
  (∀ k sn, k ∈ l → md_snaps m !! k = Some sn → sn_log sn ≠ None) →
  ∃ cs, result σ hid (run_diff E a b batch) = Some (Ok cs).
Proof. exact diff_available. Qed.
Print Assumptions C25_diff_with_logs_partial.

(** A transaction is begun on a branch, which is removed and added again before
    the commit. *)
Definition C25_calls : list call :=
  [ex_create; CLoad 1; ex_append; CRun 1 ex_env ex_opts (OInsert MUpsert [ex_row 4 "x" "X"; ex_row 9 "y" "Y"]);
   CEdit 1 (EdAddBranch "b"); CEdit 1 (EdSetBranch "b"); CBegin 1 7;
   COp 7 ex_env ex_opts (OAppend [[ex_row 30 "p" "P"]]); CLoad 2; CEdit 2 (EdRemoveBranch "b"); CEdit 2 (EdAddBranch "b");
   CCommit 7; CRun 0 ex_env ex_opts (ODelete (ex_cmp OpGt "k" (SNum 3)))].
Example C25_case : ∃ h m,
  limited not_parquet init (ex_calls C25_calls) ∧ y_handles (ex_calls C25_calls) !! 0 = Some h
  ∧ stored_meta (w_fs (y_world (ex_calls C25_calls))) = Some m
  ∧ named m (VId 1) = Some 1%Z ∧ named m (VName "b") = Some 3%Z ∧ path_to m 1 3 [2; 3]%Z.
Proof.
  do 2 eexists. split; [limited_by_computing|].
  split; [computed|]. split; [computed|]. split; [done|]. split; [done|].
  apply (path_tested _ _ _ [3; 2]%Z [0]%Z); [computed|done].
Qed.
