(** C30: distributed append writes every row exactly once. *)
From Verif.Model Require Import RayOps.
From Verif.Spec Require Import Api Fixture.
From Verif.Proofs Require Import Shards RayAppend Witness.

(** The shards of the workers, one after the other, are the table, and every
    shard goes to an existing worker. *)
Theorem C30_shards : ∀ n (data : list row), 1 ≤ n →
  concat (ray_shards n data).*2 = data ∧ ∀ c, c ∈ ray_shards n data → c.1 < n.
Proof. exact ray_shards_spec. Qed.
Print Assumptions C30_shards.

(** Every source is given to one worker. *)
Theorem C30_sources : ∀ n (sources : list (list (list row))),
  (ray_sources n sources).*2 = sources ∧ ∀ c, c ∈ ray_sources n sources → 1 ≤ n → c.1 < n.
Proof. exact ray_sources_spec. Qed.
Print Assumptions C30_sources.

(** After a successful distributed append a full read shows the rows it showed
    before and the appended rows, each once, and the reported number of rows is
    theirs. *)
Theorem C30_append : ∀ σ hid s E fo n data st before,
  reachable σ → schema_at σ hid = Some s → reads σ hid None before → 1 ≤ n →
  result σ hid (run_ray_append E fo n data) = Some (Ok (JSucceeded st)) →
  st_rows st = Z.of_nat (length data)
  ∧ ∃ written, written ≡ₚ data
    ∧ reads (after σ hid (run_ray_append E fo n data)) hid None (before ++ (show s <$> written)).
Proof. exact ray_append_once. Qed.
Print Assumptions C30_append.
Theorem C30_append_from : ∀ σ hid s E fo n sources st before,
  reachable σ → schema_at σ hid = Some s → reads σ hid None before → 1 ≤ n →
  result σ hid (run_ray_append_from E fo n sources) = Some (Ok (JSucceeded st)) →
  st_rows st = Z.of_nat (length (concat (concat sources)))
  ∧ ∃ written, written ≡ₚ concat (concat sources)
    ∧ reads (after σ hid (run_ray_append_from E fo n sources)) hid None (before ++ (show s <$> written)).
Proof. exact ray_append_from_once. Qed.
Print Assumptions C30_append_from.

(** It is only skipped if there are no rows. *)
Theorem C30_skipped : ∀ σ hid E fo n data,
  reachable σ → 1 ≤ n → result σ hid (run_ray_append E fo n data) = Some (Ok JSkipped) → data = [].
Proof. exact ray_append_skipped. Qed.
Print Assumptions C30_skipped.

Example C30_case_shards : (ray_shards 3 [1; 2; 3; 4; 5; 6; 7; 8] = [(0, [1; 2]); (1, [3; 4]); (2, [5; 6]); (0, [7; 8])])
  ∧ ray_shards 4 [1; 2] = [(0, [1]); (1, [2])] ∧ ray_shards 2 (@nil nat) = [(0, [])]
  ∧ ray_sources 2 ["a"; "b"; "c"] = [(0, "a"); (1, "b"); (0, "c")].
Proof. vm_compute. done. Qed.
Example C30_case_append : ∃ σ s st before,
  reachable σ ∧ schema_at σ 0 = Some s ∧ reads σ 0 None before ∧ length before = 5
  ∧ result σ 0 (run_ray_append ex_env ex_opts 2 [ex_row 6 "f" "F"; ex_row 7 "g" "G"; ex_row 8 "h" "H"]) = Some (Ok (JSucceeded st)).
Proof.
  set (cs := [ex_create; ex_append]). exists (ex_calls cs). do 3 eexists.
  assert (reachable (ex_calls cs)) by (apply reach; calls).
  split; [done|]. split; [computed|]. split; [by reads_by_computing|]. split; computed.
Qed.
Example C30_case_append_from : ∃ σ s st before,
  reachable σ ∧ schema_at σ 0 = Some s ∧ reads σ 0 None before ∧ length before = 5
  ∧ result σ 0 (run_ray_append_from ex_env ex_opts 2 [[[ex_row 6 "f" "F"]; [ex_row 7 "g" "G"]]; []; [[ex_row 8 "h" "H"]]]) = Some (Ok (JSucceeded st)).
Proof.
  set (cs := [ex_create; ex_append]). exists (ex_calls cs). do 3 eexists.
  assert (reachable (ex_calls cs)) by (apply reach; calls).
  split; [done|]. split; [computed|]. split; [by reads_by_computing|]. split; computed.
Qed.
Example C30_case_skipped : reachable (ex_calls [ex_create])
  ∧ result (ex_calls [ex_create]) 0 (run_ray_append ex_env ex_opts 2 []) = Some (Ok JSkipped).
Proof. split; [apply reach; calls|computed]. Qed.
