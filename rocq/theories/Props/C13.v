(** C13: tags never move. *)
From Verif.Spec Require Import Api Fixture Evolution.
From Verif.Proofs Require Import History Witness.

(** Tag [n] refers to snapshot [i] and reading it gives [rows]: so it is after
    any history that does not remove it. *)
Theorem C13_tags_stay_partial : ∀ σ σ' hid hid' h' n m i rows,
  reachable σ → stored_meta (w_fs (y_world σ)) = Some m → md_refs m !! n = Some (SRef i RTag) →
  fresh_history (fun c => ¬ removes_tag n c) σ σ' → y_handles σ' !! hid' = Some h' →
  reads σ hid (Some (VName n)) rows →
  reads σ' hid' (Some (VName n)) rows
  ∧ ∃ m', stored_meta (w_fs (y_world σ')) = Some m' ∧ md_refs m' !! n = Some (SRef i RTag).
Proof. exact tag_stays. Qed.
Print Assumptions C13_tags_stay_partial.

(** Tag "t" on snapshot 1, then commits on main and on a branch, another tag
    added and removed, and the branch removed. *)
Example C13_case : ∃ σ σ' h' m,
  reachable σ ∧ stored_meta (w_fs (y_world σ)) = Some m ∧ md_refs m !! "t" = Some (SRef 1 RTag)
  ∧ fresh_history (fun c => ¬ removes_tag "t" c) σ σ' ∧ y_handles σ' !! 1 = Some h'
  ∧ reads σ 0 (Some (VName "t")) (concat ex_rows) ∧ reads σ' 1 None [ex_row 1 "a" "A"; ex_row 3 "c" "C"; ex_row 4 "d" "D"; ex_row 5 "e" "E"].
Proof.
  set (cs := [ex_create; ex_append; CEdit 0 (EdAddTag "t" None)]).
  set (ds := [CRun 0 ex_env ex_opts (ODelete (ex_cmp OpEq "k" (SNum 2))); CEdit 0 (EdAddBranch "b"); CEdit 0 (EdAddTag "u" (Some 0%Z));
   CLoad 1; CEdit 0 (EdSetBranch "b"); CRun 0 ex_env ex_opts (OInsert MUpsert [ex_row 3 "x" "X"]);
   CEdit 0 (EdSetBranch MAIN); CEdit 0 (EdRemoveTag "u"); CEdit 0 (EdRemoveBranch "b")]).
  exists (ex_calls cs), (foldl step (ex_calls cs) ds).
  assert (reachable (ex_calls cs)) by (apply reach; calls).
  assert (reachable (foldl step (ex_calls cs) ds)) by (apply reach_from; [done|calls]).
  do 2 eexists. split_and!; [done|computed|done|fresh_by_computing|computed|by reads_by_computing|by reads_by_computing].
Qed.

(** Without the restriction to up-to-date handles the tag may disappear. *)
Theorem C13_stale_refuted : ∃ σ σ' hid n rows,
  reachable σ ∧ history (fun σ c => env_ok σ c ∧ ¬ removes_tag n c) σ σ'
  ∧ reads σ hid (Some (VName n)) rows
  ∧ result σ' hid (run_read_all ex_env None None (Some (VName n)) false None) = Some (Err (EUser UVersionNotFound)).
Proof.
  set (cs := [ex_create; ex_append; CLoad 1; CEdit 0 (EdAddTag "t" None)]).
  exists (ex_calls cs), (step (ex_calls cs) (CEdit 1 (EdAddTag "u" None))), 0, "t", (concat ex_rows).
  assert (reachable (ex_calls cs)) by (apply reach; calls).
  split_and!; [done| |by reads_by_computing|computed].
  apply HistStep; [constructor|]. split; [exact I|by intros ?].
Qed.
Print Assumptions C13_stale_refuted.
