(** C33: distributed diff partitions the change files. *)
From Verif.Model Require Import RayOps.
From Verif.Spec Require Import Api Fixture Changes.
From Verif.Proofs Require Import Shards RayDiff Witness.

(** The streams, one after the other, are the list of changed files, so each
    file is in exactly one stream; there are as many streams as asked for. *)
Theorem C33_partition : ∀ n (files : list row_bitmap), 1 ≤ n → concat (ray_streams n files) = files ∧ length (ray_streams n files) = n.
Proof. exact ray_streams_all. Qed.
Print Assumptions C33_partition.

(** So a distributed diff returns the changes of a local diff, row by row with
    snapshot and kind and in the same order, or the same error. *)
Theorem C33_same_changes : ∀ σ hid E E' n blocks a b batch batch',
  reachable σ → 1 ≤ n →
  rmap changed_rows <$> result σ hid (run_ray_diff E n blocks a b batch)
  = rmap changed_rows <$> result σ hid (run_diff E' a b batch').
Proof. exact ray_diff_same. Qed.
Print Assumptions C33_same_changes.

Example C33_case_streams : ray_streams 3 [1; 2; 3; 4; 5] = [[1; 2]; [3; 4]; [5]] ∧ ray_streams 4 [1; 2] = [[1]; [2]; []; []]
  ∧ ray_streams 4 [1; 2; 3; 4; 5] = [[1; 2]; [3; 4]; [5]; []].
Proof. vm_compute. done. Qed.
(** An append of two files and a delete. *)
Example C33_case_diff : ∃ σ cs l,
  reachable σ
  ∧ result σ 0 (run_ray_diff ex_env 3 true (VId 0) (VId 2) (Some 1)) = Some (Ok cs)
  ∧ changed_rows cs = l ∧ l.*1.*2 = [ChAdd; ChAdd; ChAdd; ChAdd; ChAdd; ChDelete].
Proof.
  set (cs := [ex_create; ex_two_files; CRun 0 ex_env ex_large (ODelete (ex_cmp OpGt "k" (SNum 4)))]). exists (ex_calls cs). do 2 eexists.
  assert (reachable (ex_calls cs)) by (apply reach; calls).
  split; [done|]. split; [computed|]. split; computed.
Qed.
