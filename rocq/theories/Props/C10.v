(** C10: primary keys stay unique. *)
From Verif.Spec Require Import Api Fixture Keys Orderly Disturbed Uniqueness.
From Verif.Proofs Require Import Unique Witness DisturbedWitness.

(** [undisturbed keyed_op init σ]: [σ] is reached by calls of any number of
    concurrent handles, with crashes; data is modified by insert, upsert and
    delete only, run locally or distributed (distributed deletes must leave the
    right rows, see C32).  Missing from the full claim: null and NaN keys ([keyed_op]),
    keys after nested or record fields ([plain_keys], see below), removal of
    branches and edits through stale handles while a transaction is open (they
    lose snapshots, whose numbers are used again), and handles that switch branch
    within a transaction ([undisturbed]); all three are refuted below. *)
Theorem C10_unique_keys_partial : ∀ σ hid s v rows,
  undisturbed keyed_op init σ → schema_at σ hid = Some s → plain_keys s → reads σ hid v rows →
  unique_keys (s_pks s) rows ∧ proper_keys (s_pks s) rows.
Proof. exact unique_history. Qed.
Print Assumptions C10_unique_keys_partial.

(** Two handles insert, upsert and delete, locally and distributed; a transaction
    is open meanwhile.  Later the first handle, which is stale, adds a branch (the
    last snapshot is lost), and removes it. *)
Definition C10_calls : list call :=
  [ex_create; CLoad 1;
   CRun 0 ex_env ex_opts (OInsert MInsert (concat ex_rows));
   CBegin 1 7; COp 7 ex_env ex_opts (OInsert MUpsert [ex_row 4 "x" "X"; ex_row 9 "y" "Y"]);
   CCommit 7;
   CRun 0 ex_env ex_opts (ODelete (ex_cmp OpEq "k" (SNum 2)));
   CRun 1 ex_env ex_opts (OInsert MInsert [ex_row 9 "z" "Z"]);
   CRun 1 ex_env ex_opts (ORayInsert 2 MUpsert [ex_row 9 "w" "W"; ex_row 10 "v" "V"; ex_row 11 "u" "U"]);
   CRun 0 ex_env ex_opts (ORayDelete (ex_cmp OpEq "k" (SNum 10)));
   CRun 0 ex_env ex_opts (ORayInsert 2 MInsert [ex_row 11 "t" "T"]);
   CRun 1 ex_env ex_opts (OInsert MUpsert [ex_row 12 "s" "S"]);
   CEdit 0 (EdAddBranch "b"); CEdit 0 (EdRemoveBranch "b");
   CRun 1 ex_env ex_opts (OInsert MInsert [ex_row 13 "r" "R"])].
Example C10_case : ∃ s rows,
  undisturbed keyed_op init (ex_calls C10_calls) ∧ schema_at (ex_calls C10_calls) 0 = Some s ∧ plain_keys s
  ∧ reads (ex_calls C10_calls) 0 None rows ∧ length rows = 7.
Proof.
  assert (reachable (ex_calls C10_calls)) by (apply reach; calls).
  do 2 eexists. split_and!; [|computed|apply plain_keys_tested; computed|by reads_by_computing|done].
  undisturbed_by keyed_tested.
Qed.

(** With a struct before the key, one of whose fields is called like the key,
    two inserts of one key both succeed. *)
Theorem C10_refuted : ∃ σ s rows,
  orderly keyed_op init σ ∧ schema_at σ 0 = Some s ∧ reads σ 0 None rows ∧ ¬ unique_keys (s_pks s) rows.
Proof.
  set (cs := [ex_nested; CRun 0 ex_env ex_large (OInsert MInsert [ex_nested_row 1 2 3]);
              CRun 0 ex_env ex_large (OInsert MInsert [ex_nested_row 5 6 3])]).
  exists (ex_calls cs). do 2 eexists.
  assert (reachable (ex_calls cs)) by (apply reach; calls).
  split_and!; [|computed|by reads_by_computing|].
  - orderly_by keyed_tested.
  - intros Hn%NoDup_ListNoDup. vm_compute in Hn. inversion Hn as [|? ? Hno _]. apply Hno. by left.
Qed.
Print Assumptions C10_refuted.

(** While a transaction is open, a stale handle adds a tag (the last snapshot is
    lost), and another one inserts.  Its snapshot has the number of the lost one,
    so the transaction commits, though it has not seen that snapshot: one key is
    inserted twice. *)
Theorem C10_refuted_stale : ∃ σ s rows,
  stale_edits keyed_op init σ ∧ schema_at σ 0 = Some s ∧ plain_keys s ∧ reads σ 0 None rows
  ∧ ¬ unique_keys (s_pks s) rows.
Proof.
  set (cs := [ex_create; CLoad 1; CLoad 2;
              CRun 0 ex_env ex_opts (OInsert MInsert [ex_row 1 "a" "A"]);
              CBegin 0 7; COp 7 ex_env ex_opts (OInsert MInsert [ex_row 5 "e" "E"]);
              CEdit 1 (EdAddTag "t" None);
              CRun 2 ex_env ex_opts (OInsert MInsert [ex_row 5 "f" "F"]); CCommit 7]).
  exists (ex_calls cs). do 2 eexists.
  assert (reachable (ex_calls cs)) by (apply reach; calls).
  split_and!; [|computed|apply plain_keys_tested; computed|by reads_by_computing|].
  - stale_edits_by keyed_tested.
  - intros Hn%NoDup_ListNoDup. vm_compute in Hn. inversion Hn as [|? ? Hno _]. apply Hno. by left.
Qed.
Print Assumptions C10_refuted_stale.

(** The same when the branch of the open transaction is removed and added again. *)
Theorem C10_refuted_removed : ∃ σ s rows,
  removals keyed_op init σ ∧ schema_at σ 0 = Some s ∧ plain_keys s ∧ reads σ 0 None rows
  ∧ ¬ unique_keys (s_pks s) rows.
Proof.
  set (cs := [ex_create; CEdit 0 (EdAddBranch "b"); CEdit 0 (EdSetBranch "b");
              CRun 0 ex_env ex_opts (OInsert MInsert [ex_row 1 "a" "A"]);
              CBegin 0 7; COp 7 ex_env ex_opts (OInsert MInsert [ex_row 5 "e" "E"]);
              CLoad 1; CEdit 1 (EdRemoveBranch "b"); CEdit 1 (EdAddBranch "b");
              CLoad 2; CEdit 2 (EdSetBranch "b");
              CRun 2 ex_env ex_opts (OInsert MInsert [ex_row 5 "f" "F"]); CCommit 7]).
  exists (ex_calls cs). do 2 eexists.
  assert (reachable (ex_calls cs)) by (apply reach; calls).
  split_and!; [|computed|apply plain_keys_tested; computed|by reads_by_computing|].
  - removals_by keyed_tested.
  - intros Hn%NoDup_ListNoDup. vm_compute in Hn. inversion Hn as [|? ? Hno _]. apply Hno. by left.
Qed.
Print Assumptions C10_refuted_removed.

(** The handle of a transaction on branch b changes to main before the insert
    runs: the key is looked for on main, and the row is committed on b. *)
Theorem C10_refuted_switched : ∃ σ s rows,
  switches keyed_op init σ ∧ schema_at σ 0 = Some s ∧ plain_keys s ∧ reads σ 1 None rows
  ∧ ¬ unique_keys (s_pks s) rows.
Proof.
  set (cs := [ex_create; CEdit 0 (EdAddBranch "b"); CEdit 0 (EdSetBranch "b");
              CRun 0 ex_env ex_opts (OInsert MInsert [ex_row 5 "e" "E"]);
              CBegin 0 7; CEdit 0 (EdSetBranch MAIN);
              COp 7 ex_env ex_opts (OInsert MInsert [ex_row 5 "f" "F"]); CCommit 7;
              CLoad 1; CEdit 1 (EdSetBranch "b")]).
  exists (ex_calls cs). do 2 eexists.
  assert (reachable (ex_calls cs)) by (apply reach; calls).
  split_and!; [|computed|apply plain_keys_tested; computed|by reads_by_computing|].
  - switches_by keyed_tested.
  - intros Hn%NoDup_ListNoDup. vm_compute in Hn. inversion Hn as [|? ? Hno _]. apply Hno. by left.
Qed.
Print Assumptions C10_refuted_switched.
