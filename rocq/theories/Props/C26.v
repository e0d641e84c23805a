(** C26: batching, projection and reference reads do not change the data. *)
From Verif.Spec Require Import Api Fixture Logical.
From Verif.Proofs Require Import ReadRun Reads Witness.

(** The result does not depend on the batch size, nor on how the reader chunks
    tables ([E]), for any filter, field selection and version; [None] selects
    all fields. *)
Theorem C26_batch_size_irrelevant : ∀ σ hid s E E' flt fields v ref b b',
  reachable σ → schema_at σ hid = Some s →
  (∀ n, n ∈ from_option id (names_of (s_fields s)) fields → n ∈ names_of (s_fields s)) →
  result σ hid (run_read_all E flt fields v ref b) = result σ hid (run_read_all E' flt fields v ref b').
Proof. exact read_batches. Qed.
Print Assumptions C26_batch_size_irrelevant.

(** No batch has more than [n] rows. *)
Theorem C26_batches_bounded : ∀ σ hid s E flt fields v n ts,
  reachable σ → schema_at σ hid = Some s →
  (∀ f, f ∈ from_option id (names_of (s_fields s)) fields → f ∈ names_of (s_fields s)) → 1 ≤ n →
  result σ hid (run_read E flt fields v false (Some n)) = Some (Ok ts) → Forall (fun t => length t ≤ n) ts.
Proof. exact read_bound. Qed.
Print Assumptions C26_batches_bounded.

(** Reading the fields [ns] is reading everything and keeping these columns
    (record fields last). *)
Theorem C26_projection_commutes : ∀ σ hid s E E' flt v b b' ns rows,
  reachable σ → schema_at σ hid = Some s → (∀ n, n ∈ ns → n ∈ names_of (s_fields s)) →
  result σ hid (run_read_all E flt None v false b) = Some (Ok rows) →
  result σ hid (run_read_all E' flt (Some ns) v false b') = Some (Ok (columns (shown_order s ns) <$> rows)).
Proof. exact read_projection. Qed.
Print Assumptions C26_projection_commutes.

(** A reference read returns addresses that resolve to what a normal read
    returns. *)
Theorem C26_references_resolve : ∀ σ hid s E E' flt fields v b b' addrs,
  reachable σ → schema_at σ hid = Some s →
  (∀ n, n ∈ from_option id (names_of (s_fields s)) fields → n ∈ names_of (s_fields s)) →
  result σ hid (run_read_all E flt fields v true b) = Some (Ok addrs) →
  ∃ full, mapM (resolve_row (records_in (w_fs (y_world σ))) (s_recs s)) addrs = Some full
    ∧ result σ hid (run_read_all E' flt fields v false b')
      = Some (Ok (columns (shown_order s (from_option id (names_of (s_fields s)) fields)) <$> full)).
Proof. exact read_reference. Qed.
Print Assumptions C26_references_resolve.

Example C26_case : ∃ σ s ts addrs,
  reachable σ ∧ schema_at σ 0 = Some s
  ∧ result σ 0 (run_read ex_env (Some (ex_cmp OpGt "k" (SNum 1))) (Some ["r"; "k"]) None false (Some 2)) = Some (Ok ts)
  ∧ length <$> ts = [1; 2; 1]
  ∧ result σ 0 (run_read_all ex_env None (Some ["r"; "k"]) None true None) = Some (Ok addrs) ∧ length addrs = 5.
Proof.
  exists (ex_calls [ex_create; ex_append]).
  assert (reachable (ex_calls [ex_create; ex_append])) by (apply reach; calls).
  do 3 eexists. split_and!; [done|computed|computed|computed|computed|done].
Qed.
