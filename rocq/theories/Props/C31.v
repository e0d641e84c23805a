(** C31: row-range blocks read every row exactly once. *)
From Verif.Model Require Import RayOps.
From Verif.Spec Require Import Api Fixture.
From Verif.Proofs Require Import RayRead Witness.

(** The row ranges of the tasks for one file are, one after the other, all rows
    of the file. *)
Theorem C31_ranges : ∀ df b,
  1 ≤ b → (0 < st_rows (df_stats df))%Z →
  concat ((fun t => match df_slice t with Some (x, y) => seq x (y - x) | None => [] end) <$> read_tasks true (Some b) [df])
  = seq 0 (Z.to_nat (st_rows (df_stats df))).
Proof. exact task_ranges. Qed.
Print Assumptions C31_ranges.

(** The tables of a distributed read, one after the other, are what a local read
    returns, in order, for every filter, choice of fields, version and batch
    size, with or without row-range blocks. *)
Theorem C31_same_rows : ∀ σ hid s E E' blocks flt fields v ref b b',
  reachable σ → schema_at σ hid = Some s → (∀ ns n, fields = Some ns → n ∈ ns → n ∈ s_names s) →
  (fun r => rmap (@concat row) r) <$> result σ hid (run_ray_read E blocks flt fields v ref b)
  = result σ hid (run_read_all E' flt fields v ref b').
Proof. exact ray_read_local. Qed.
Print Assumptions C31_same_rows.

(** No table is empty and none is larger than the batch size. *)
Theorem C31_block_size : ∀ σ hid s E blocks flt fields v ref b ts,
  reachable σ → schema_at σ hid = Some s → (∀ ns n, fields = Some ns → n ∈ ns → n ∈ s_names s) →
  result σ hid (run_ray_read E blocks flt fields v ref b) = Some (Ok ts) →
  Forall (fun t => t ≠ []) ts
  ∧ (∀ n, blocks = true → b = Some n → 1 ≤ n → Forall (fun t => length t ≤ n) ts).
Proof. exact ray_read_sizes. Qed.
Print Assumptions C31_block_size.

Example C31_case_ranges :
  df_slice <$> read_tasks true (Some 2) [DataFile PEntry 0 (Stats 5 0 0 0) None None] = [Some (0, 2); Some (2, 4); Some (4, 5)].
Proof. vm_compute. done. Qed.
(** Keys 2 to 5 of five rows in blocks of two: the filter leaves four rows. *)
Example C31_case_read : ∃ σ s,
  reachable σ ∧ schema_at σ 0 = Some s ∧ (∀ ns n, Some ["k"] = Some ns → n ∈ ns → n ∈ s_names s)
  ∧ result σ 0 (run_ray_read ex_env true (Some (ex_cmp OpGt "k" (SNum 1))) (Some ["k"]) None false (Some 2))
    = Some (Ok [[[("k", CVal (SNum 2))]; [("k", CVal (SNum 3))]]; [[("k", CVal (SNum 4))]; [("k", CVal (SNum 5))]]]).
Proof.
  set (cs := [ex_create; ex_add (concat ex_rows)]). exists (ex_calls cs). eexists.
  assert (reachable (ex_calls cs)) by (apply reach; calls).
  split; [done|]. split; [computed|]. split; [|computed].
  intros ns n [= <-] ->%elem_of_list_singleton. apply (bool_decide_unpack _); computed.
Qed.
