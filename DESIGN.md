# Formal model of google/space in Rocq

Source: `/repo` (python), pinned commit. Python paths below are relative to
`/repo/python/src/space/`.

## Approach

The model is a set of total Gallina functions that follow the Python functions
branch by branch (`rocq/theories/Model/*.v`). Every definition cites file and
lines. Python exceptions are values of type `err` with three classes, because
`StorageMixin.transactional` (core/runners.py:105-121) only distinguishes three:
`EUser` (UserInputError and subclasses), `ERuntime` (SpaceRuntimeError and
subclasses) and `EOther` (everything else, which propagates to the caller).

* A *world* is a file system (finite map from stored paths to file contents),
  a supply of fresh uuids and the log of primitive file system steps. A crash is
  a prefix of that log.
* A *handle* is a `Storage` object in memory: metadata, metadata file name,
  current branch, max snapshot id.
* A *system* is a world, any number of handles and any number of open
  transactions. A history is a list of calls: create, load, reload, tag and
  branch edits, operations, begin / operation / commit of a transaction, passing
  of time, external files appearing, crashes. Theorems about "every reachable
  state" are about every such list, by induction.
* Sizes (`nbytes`, Parquet compressed sizes), row-group cuts and chunk cuts are
  chosen by an arbitrary oracle `env` that every theorem quantifies over.

Layout of `rocq/theories`: `Model/` (definitions only), `Spec/` (small
specifications that theorems are stated with, and the fixture used by examples),
`Proofs/` (lemmas, and `Witness.v`, `RefreshWitness.v` with tools for examples),
`Props/` (one file per property: theorems closed by a lemma, `Print
Assumptions`, and a concrete case meeting the hypotheses).

If a property is false of the code, its file has theorems `..._refuted...` with
concrete witnesses, and the strongest conditional version found as
`..._partial`.

## Trusted base

* The Coq 8.16.1 kernel. std++ and the standard library are used; every property
  theorem's `Print Assumptions` prints "Closed under the global context". (The
  gate lists seven parameters of `Coq.ssr.ssrunder`; they are module parameters of
  the standard library that no theorem uses.)
* The reading of Python, pyarrow and protobuf written in the comments of the
  model: Arrow filters drop rows on which the mask is null; Kleene logic for and,
  or, not; comparison with null is null, with NaN false (not_equal true); Parquet
  min/max statistics ignore null and NaN and are absent when there is no other
  value; protobuf `MergeFrom` concatenates repeated fields; `os.path` functions
  on POSIX; Arrow's inner join keeps pairs of rows with equal non-null keys.
* uuid4 never collides (uuids come from a counter in the world).
* A rename is atomic (`fs.move`).

### Modelled code

| Python | model |
|--------|-------|
| core/utils/errors.py, the exception classes of core/runners.py:105-121 | Model/Base.v |
| pyarrow compute expressions, values, rows; core/utils/paths.py file names | Model/Values.v |
| core/proto/*.proto messages, core/options.py, core/fs/{arrow,parquet}.py, core/ops/utils.py:29-42 | Model/Store.v |
| core/schema/{arrow,substrait,field_ids,utils}.py | Model/Schema.v |
| core/serializers/base.py | Model/Serializers.v |
| core/manifests/{index,record}.py | Model/Manifests.v |
| core/manifests/falsifiable_filters.py | Model/Falsify.v |
| core/ops/append.py | Model/AppendOp.v |
| core/ops/delete.py | Model/DeleteOp.v |
| core/ops/read.py, core/fs/array_record.py | Model/ReadOp.v |
| core/ops/insert.py, core/ops/change_data.py, core/ops/utils.py, core/loaders/{parquet,array_record}.py, core/runners.py:203-286 | Model/Runner.v |
| core/storage.py (Storage, Transaction, metadata, references, commit), core/jobs.py | Model/Storage.v |
| core/storage.py versions, core/datasets.py:99-110 | Model/Versions.v |
| histories of calls by several handles | Model/System.v |
| core/random_access.py | Model/RandomAccess.v |
| core/utils/paths.py, posixpath | Model/Paths.v |
| catalogs/directory.py | Model/Catalog.v |
| core/views.py, core/transform/{plans,udfs}.py, core/datasets.py | Model/Views.v |
| ray/runners.py, ray/data_sources.py, ray/ops/{append,insert,delete,change_data,utils}.py | Model/RayOps.v |
| ray/ops/join.py, core/transform/join.py | Model/Join.v (datasets as sides), Model/JoinFold.v (the same with flattened addresses), Model/ViewJoin.v (views as sides, options), Model/ViewJoinFold.v (views as sides, flattened addresses) |
| ray/runners.py:174-258 (refresh) | Model/Refresh.v |
| ray/runners.py:60-86 (reading views), core/transform/udfs.py datasets | Model/ViewRead.v |
| ray/runners.py:88-127 (diffs of views) | Model/ViewDiff.v |
| ray/runners.py:135-172 (reads and diffs of materialized views) | Model/MvRead.v |

### Not modelled

Ray scheduling (only what is sent to which worker and how results are merged);
the bytes of Parquet, ArrayRecord and protobuf files; compression; wall-clock
values; logging; TFDS feature encoding (core/schema/types/tf_features.py is
seen through its serializer only); core/schema/types/files.py beyond its storage
type; cloud file systems; threads inside pyarrow; int32 overflow of row ids;
core/utils/lazy_imports_utils.py; generated protobuf code.

### Simplifications

* Column names of a table are distinct; `str(row_filter)` is injective.
* The full and the short path of a metadata file never coincide.
* External files conform to their declared schema and do not change.
* The check on kinds of statistics is raised when statistics are built.
* Stored metadata keeps Arrow fields instead of their Substrait encoding; C36 is
  about that encoding.
* Deleted manifest ids are visited in the order of collection.
* A crash stops the call; the handles of other processes stay.
* `diff` is iterated to its end; versions() keeps times in full.
* Random access: `ArrayRecordDataSource` concatenates its instructions;
  `group_by` yields groups in order of first occurrence; indexes are naturals.
* Ray: actors and tasks run one after another; parallelism at least 1; a dataset
  keeps the order of its tasks; no task means an empty dataset. Histories
  mix local and distributed calls.
* Joins: results are compared up to order; sides are datasets or views, in two storages;
  flattening and folding of record addresses is the identity, except in
  Model/JoinFold.v and Model/ViewJoinFold.v (C64: it is, for distinct names and declared record fields); Arrow's
  restrictions on join columns are errors (`join_accepts`).
* Paths: no symbolic links; temporary files left out.
* Catalogs: storages at different places share no files; `os.listdir` is an
  oracle; all storages are datasets.
* Views: the plan is kept apart from the metadata message; cloudpickle
  round-trips; others do not touch UDF files; random ids are an oracle sequence
  without slashes.
* Reading views: as refresh; repartitioning the dataset keeps its rows and order;
  empty tables are dropped at the end.
* Refresh: user functions act row by row and are total; both changes of a source
  snapshot are read before the first is processed; source and materialized view
  are separate storages.

## Per property

Status: *proved* = the statement in properties.jsonl; *partial* = proved under the named conditions, with refutations of the unconditional claim where it is false of the code.

### C01 Append adds exactly the input rows (proved)

Model/AppendOp.v (LocalAppendOp: batches, record writers, index writer, manifest writers), Model/ReadOp.v, Model/Runner.v, Model/System.v. Invariant over the batches: closed files ++ open row groups ++ cache = rows written so far; then an effect lemma for the commit in every reachable state.

Theorems (rocq/theories/Props/C01.v): `C01_append_adds_input`. For every reachable state, handle and successful append: the rows read afterwards are the rows read before followed by the input rows.

### C02 Record payloads come back unchanged (proved)

Model/AppendOp.v write_record_column, Model/ReadOp.v. Addresses: files never change (C46) and the snapshot invariant says every address is inside a record file. Provenance: Proofs/Provenance.v, an invariant on files preserved by every call of every history (no orderliness): each index file and record file named by any metadata file holds rows supplied by some operation.

Theorems (rocq/theories/Props/C02.v): `C02_addresses_resolve`, `C02_rows_supplied`. Addresses resolve for ever to the rows read; every row read was supplied by some operation. Both for all histories.

### C03 Append bookkeeping agrees with the files written (proved)

Model/AppendOp.v, Model/Manifests.v. Same invariant as C01, with the lists of files, manifests, row counts and byte counts beside it.

Theorems (rocq/theories/Props/C03.v): `C03_append_accounts`. For all batches, limits and reachable states.

### C04 Filtered read equals filtering the full read (partial)

Model/Falsify.v (falsifiable filters on expression trees), Model/Storage.v data_files, Model/ReadOp.v. Three-valued soundness by structural induction, then statistics (C05) and file-set reading.

Theorems (rocq/theories/Props/C04.v): `C04_filtered_read_partial`, `C04_refuted_not`, `C04_refuted_nan`, `C04_refuted_null`, `C04_refuted_nested`, `C04_refuted_two_keys`. Proved for filters without not over mixed comparisons, and non-null, non-NaN data as named in the hypotheses; refuted in general by witnesses (negation, NaN, null literal, a struct before the key, comparing two keys by !=).

### C05 Manifest min/max statistics bound the data (partial)

Model/Manifests.v (column statistics per row group, merge). Fold invariant over row groups; the divisions into row groups come from the oracle.

Theorems (rocq/theories/Props/C05.v): `C05_stats_bound_keys_partial`, `C05_refuted`. Proved for primary keys before any nested or record field (plain_before), for every row group division. C05_refuted: with a struct before the key the statistics of another leaf column are recorded.

### C06 Delete removes exactly the matching rows (partial)

Model/DeleteOp.v. Refinement of the file-by-file delete to `filter` on the rows; three-valued logic decides which rows are kept. C06_delete_exact describes the rows left file by file (Spec/Deletion.v) without conditions on the rows; C06_outcomes_partial adds when a delete succeeds, is skipped or fails, from a totality proof of the rewriting.

Theorems (rocq/theories/Props/C06.v): `C06_delete_removes_matching_partial`, `C06_delete_only_removes`, `C06_delete_exact`, `C06_outcomes_partial`, `C06_refuted_loss`. Exactly what remains, for any filter over index columns and any rows (C06_delete_exact); every outcome with its effect when files can be written; refuted in general: rows of files sharing a manifest with rewritten files vanish, and so do rows with null operands (C07).

### C07 Delete keeps rows on which the filter is null (partial)

Model/DeleteOp.v. The claim is false: the survivors are selected by `not filter`, null stays null.

Theorems (rocq/theories/Props/C07.v): `C07_refuted`. The claim is false of the code: C07_refuted gives the witness. Which rows remain is given exactly by C06_delete_exact.

### C08 Insert fails iff a key already exists (partial)

Model/Runner.v insert_op, key_filter (primary_key_filter). The key filter is proved equivalent to key membership; then C04 and C01.

Theorems (rocq/theories/Props/C08.v): `C08_insert_outcomes_partial`, `C08_refuted`. Both outcomes and their effects, in every reachable state, for keys before nested or record fields, non-null non-NaN keys and well-typed rows. C08_refuted: a schema with a struct before the key accepts an insert of a present key.

### C09 Upsert replaces by primary key (partial)

As C08, with C06 for the deletion and the merge of the two patches. `C09_upsert_outcomes_partial`: with typed rows and proper keys an upsert succeeds exactly if the given keys are distinct, and reports the number of rows given less the number replaced (a file without rows records no key range, so a filter by keys never selects it and the validation of files in the delete passes).

Theorems (rocq/theories/Props/C09.v): `C09_upsert_replaces_partial`, `C09_refuted_loss`, `C09_upsert_outcomes_partial`. Proved for non-null, non-NaN keys and buildable filters; which upserts succeed, what they report and what they leave is described exactly; refuted in general: an upsert can lose rows.

### C10 Primary keys stay unique (partial)

Induction over undisturbed histories with C06, C08, C09 as step lemmas.

Theorems (rocq/theories/Props/C10.v): `C10_unique_keys_partial`, `C10_refuted`, `C10_refuted_stale`, `C10_refuted_removed`, `C10_refuted_switched`. For every history of concurrent handles with transactions and crashes modifying data by insert, upsert and delete, local or distributed, with proper keys (distributed deletes on separable layouts); while a transaction is open no branch removal, no edits through stale handles, and its handle stays on its branch. All three are needed: C10_refuted_stale, C10_refuted_removed, C10_refuted_switched. C10_refuted: a schema with a struct before the key.

### C11 Job outcome tells what happened to the stored state (partial)

Model/Runner.v transactional, Model/Storage.v commit. Case analysis on outcomes; unchanged worlds by frame lemmas. New IDs (Proofs/NewId.v): without branch removal every stored snapshot is at most some branch head.

Theorems (rocq/theories/Props/C11.v): `C11_refuted`, `C11_success_partial`, `C11_success_new_partial`, `C11_no_success_no_change`. No-success-no-change is proved in full. Success: all of the claim, except that after a branch was removed the new snapshot may replace an old one with the same ID (C11_refuted); without branch removal it is new (C11_success_new_partial).

### C12 Time travel: committed snapshots are immutable (partial)

Model/System.v histories. Invariant: a snapshot reachable from a reference stays stored under its ID with the same manifests; files never change.

Theorems (rocq/theories/Props/C12.v): `C12_refuted`, `C12_immutable_partial`, `C12_main_immutable_partial`. Proved for histories whose tag and branch edits go through up-to-date handles and that remove no branch reaching the snapshot; refuted in general (a snapshot id can be reused).

### C13 Tags never move (partial)

Model/Storage.v references. Invariant over histories; the refutation interleaves two handles.

Theorems (rocq/theories/Props/C13.v): `C13_tags_stay_partial`, `C13_stale_refuted`. Proved for all histories whose tag and branch edits go through up-to-date handles; otherwise refuted: an edit through a stale handle drops a tag.

### C14 Branch isolation (proved)

Model/Storage.v commit, Model/ReadOp.v. Frame lemma for the references map.

Theorems (rocq/theories/Props/C14.v): `C14_branches_isolated`. Other branches and tags read the same through every handle.

### C15 Snapshot ids grow along history (proved)

Invariant on parents and on the maximum ID of reachable states.

Theorems (rocq/theories/Props/C15.v): `C15_ids_decrease`, `C15_new_id_is_largest`. Parent chains are strictly decreasing to 0; new ids exceed all heads.

### C16 Concurrent transactions on a branch: first committer wins (proved)

Model/System.v with explicit begin / operation / commit calls. Induction over the calls in between.

Theorems (rocq/theories/Props/C16.v): `C16_later_committer_fails`, `C16_commits_are_serial`. The later committer fails and changes nothing; a successful commit replaces the head it started from and acts on the rows present at commit. Calls in between are arbitrary; the branch is not removed meanwhile and edits go through up-to-date handles.

### C17 Commit is atomic between concurrent writers (partial)

txn_check and commit run as separate steps of two transactions; false of the code (no lock). The state after a late write is computed from commit_run with the handle of the check.

Theorems (rocq/theories/Props/C17.v): `C17_refuted`, `C17_write_restores`, `C17_nothing_lost_partial`. The claim is false of the code: C17_refuted interleaves check and write of two commits; both succeed and one row is lost. C17_write_restores: exactly what a write after a check leaves, whatever happened in between. C17_nothing_lost_partial: nothing is lost when nobody changes the metadata in between. With the commit as one step see C16.

### C18 Concurrent commits on different branches both survive (proved)

As C16, calls in between restricted to other branches.

Theorems (rocq/theories/Props/C18.v): `C18_other_branches_do_not_matter`. Commits on other branches never make a transaction fail, and its commit leaves other branches' heads and rows alone.

### C19 Tag and branch edits never lose committed data (partial)

Model/Storage.v references. False for stale handles; proved for up-to-date handles.

Theorems (rocq/theories/Props/C19.v): `C19_refuted`, `C19_edits_keep_partial`. Refuted: an edit through a stale handle writes old metadata back. Proved for up-to-date handles.

### C20 Crash atomicity (proved)

Model/Base.v logs every file-system step; a crash keeps a prefix. Induction over the steps of each call.

Theorems (rocq/theories/Props/C20.v): `C20_crash_atomic`, `C20_load_succeeds`. Any prefix of the file-system events of any call leaves the old or the new state; loading succeeds.

### C21 Create is exclusive and load finds what was created (proved)

Model/Storage.v create, load; run lemmas.

Theorems (rocq/theories/Props/C21.v): `C21_create_is_exclusive`, `C21_load_finds_created`. Exclusive create and create-then-load.

### C22 Reads see the latest commit; reload reports only foreign writes (partial)

Model/Storage.v reload, sync; reads_iff relates every handle to the stored state.

Theorems (rocq/theories/Props/C22.v): `C22_handles_agree`, `C22_load_is_latest`, `C22_reload_synchronises`, `C22_refuted`, `C22_reload_reports_partial`. reads through any handle agree, load gives the latest state, reload synchronises; refuted: reload() also returns True after the handle's own commit; exact report proved when the handle did nothing since its last reload

### C23 Diff walks exactly the commits between two versions (proved)

Model/Storage.v ordered_snapshot_ids, Model/Runner.v change-log reading. Induction on the parent chain.

Theorems (rocq/theories/Props/C23.v): `C23_diff_is_the_path`, `C23_input_error_iff_no_path`, `C23_unknown_versions`. diff returns exactly the changes of the snapshots on the parent path, oldest first; input error iff no path; in all reachable states

### C24 Replaying a diff reproduces the end version (partial)

Invariant on the patches of open transactions (Proofs/PatchEdge.v): the rows of the manifests a patch adds are those of the manifests it deletes with the logged deletions and additions applied, whatever snapshot it is committed on. So every snapshot relates to its parent (edge_exact); replay is induction on the path.

Theorems (rocq/theories/Props/C24.v): `C24_refuted_lossy`, `C24_refuted_duplicates`, `C24_refuted_distributed`, `C24_refuted_removed`, `C24_replay_partial`, `C24_replay_unique_partial`, `C24_replay_keyed_partial`. false in general (lossy deletes, duplicate keys, distributed deletes changing two files of a manifest, snapshot IDs of a removed branch given out again: refuted by witnesses); proved for all histories of local and distributed calls in which no branch is removed, also with edits through stale handles and branch switches while transactions are open, between versions with unique keys and exact row counts; with unique keys alone when no operation loses rows; and for insert/upsert/delete histories that lose no rows; missing: distributed deletes on layouts that are not separable

### C25 Diff is available for every committed snapshot (partial)

Invariant over all histories: every patch but those of append_parquet has a change log, whatever snapshot it is committed on, so has every snapshot made of one; its files exist.

Theorems (rocq/theories/Props/C25.v): `C25_refuted`, `C25_diff_available_partial`, `C25_diff_with_logs_partial`. false for append_parquet (refuted); proved for every history in which append_parquet is not used, or whenever the snapshots between have change logs

### C26 Batching, projection and reference reads do not change the data (proved)

Model/ReadOp.v. List algebra on batches and projections; addresses as in C02.

Theorems (rocq/theories/Props/C26.v): `C26_batch_size_irrelevant`, `C26_batches_bounded`, `C26_projection_commutes`, `C26_references_resolve`. Batch size, projection and reference reads.

### C27 Version resolution and listing (partial)

Model/Versions.v, Model/Storage.v snapshot lookup. Direct.

Theorems (rocq/theories/Props/C27.v): `C27_read_resolves`, `C27_diff_resolves`, `C27_read_not_found`, `C27_refuted_diff`, `C27_versions_listed`, `C27_snapshot_ids`. read and versions resolve names exactly; snapshot_ids has each snapshot once; refuted for diff: an absent start id raises UserInputError instead of VersionNotFoundError

### C28 Snapshot row count is the number of readable rows (partial)

Invariant over all histories: the rows a patch counts are those of the manifests it adds less those of the manifests it deletes (or more), so the count stays right whatever snapshot the patch is committed on.

Theorems (rocq/theories/Props/C28.v): `C28_refuted`, `C28_refuted_distributed`, `C28_count_at_least_partial`, `C28_count_exact_partial`. false when a delete loses rows, and when a distributed delete changes two files of a manifest (refuted); proved for every history of local and distributed calls: never too small when distributed deletes are separable, and exact when deletes and upserts lose no rows

### C29 Snapshot byte statistics equal the sum over live files (partial)

Invariant over all histories of adding operations, on patches as in C28; bytes come from the oracle. The exact error a delete makes is computed from the files of rewritten manifests, the files lost and the candidate files.

Theorems (rocq/theories/Props/C29.v): `C29_refuted`, `C29_bytes_exact_partial`, `C29_delete_excess`, `C29_delete_exact_partial`. false after deletes (refuted); proved for every history of local and distributed appends and inserts, append_parquet and append_array_record; the exact error a delete makes is C29_delete_excess, and deletes whose candidate files are all rewritten with their whole manifests keep the statistics exact

### C30 Distributed append writes every row exactly once (proved)

Model/RayOps.v. Arithmetic of shards; every worker runs the local append; merged patches as in C50.

Theorems (rocq/theories/Props/C30.v): `C30_shards`, `C30_sources`, `C30_append`, `C30_append_from`, `C30_skipped`. Shards and sources are partitioned over the workers; a successful Ray append adds exactly the supplied rows and reports their number. Ray actors run one after the other in the model; parallelism at least 1.

### C31 Row-range blocks read every row exactly once (proved)

Model/RayOps.v read_tasks. Arithmetic of ranges, concatenation of slices.

Theorems (rocq/theories/Props/C31.v): `C31_ranges`, `C31_same_rows`, `C31_block_size`. Ranges of the tasks of a file cover its rows in order; the Ray read equals the local read for every filter, fields, version, batch size; block sizes bounded by batch_size.

### C32 Distributed delete equals local delete (partial)

Model/RayOps.v ray_delete. Per-file deletes merged; false when touched files share a manifest. The rows left are given file by file (Spec/Deletion.v apart_remaining), from which follow the layouts for which they are right and the outcome in every case.

Theorems (rocq/theories/Props/C32.v): `C32_refuted`, `C32_same_rows_partial`, `C32_distributed_exact`, `C32_right_iff_separable`, `C32_outcomes_partial`. Full claim refuted (C32_refuted: touched files that share a manifest). Exactly what a distributed delete leaves is proved for every layout (C32_distributed_exact), and that it is what the local delete leaves exactly for layouts in which the deleted rows of a manifest are all of its rows or are all in one file that keeps a row (C32_same_rows_partial, C32_right_iff_separable). C32_outcomes_partial gives the outcome in every case for schemas and keys that can be written.

### C33 Distributed diff partitions the change files (proved)

Model/RayOps.v ray_streams, ray_changes. Partition of lists; run lemma against the local diff.

Theorems (rocq/theories/Props/C33.v): `C33_partition`, `C33_same_changes`. Streams partition the changed files; the Ray diff has the same changed rows in the same order (or the same error) as the local diff.

### C34 Refreshing a materialized view makes it equal the view (partial)

Model/Refresh.v on two machines (source, materialized view). Simulation: each transaction of the refresh takes the view of one source snapshot to the view of the next.

Theorems (rocq/theories/Props/C34.v): `C34_refresh_partial`, `C34_same_id_partial`, `C34_refresh_again`, `C34_source_untouched`, `C34_refuted_skipped`, `C34_refuted_stale`. Proved: after a successful refresh the materialized view holds the view of the version refreshed to, when it held the view of the version numbered like its own snapshot ID and row counts are exact on the way, for any history of the source in which no branch is removed; snapshot IDs advance in step when every transaction succeeds; refreshing to a version already held changes nothing (but raises UserInputError); the source is never written. Refuted in general: a skipped transaction lets the IDs drift apart and the next refresh adds rows twice; so does a refresh through a stale handle.

### C35 Join pruning and partitioning lose nothing (partial)

Model/Join.v on two machines. Every result row comes from one range; ranges from the statistics of both sides cover the common keys (C05); multiset algebra of inner joins.

Theorems (rocq/theories/Props/C35.v): `C35_partial`, `C35_returns_partial`, `C35_accepted`, `C35_empty_refuted`, `C35_null_refuted`. Joins of two datasets that return give the inner join of the unrestricted reads, for any partition function covering the common keys once; they return when both sides' columns can be joined; what is accepted is characterised. Missing: views as sides (see C59), NaN keys, keys behind nested columns. Refuted: a range without rows on one side raises under Ray 2.9.1, and a manifest with only null keys raises. Both sides ask for columns they have (own_columns; requests for which this fails are described in C63).

### C36 Schema survives storage (partial)

Model/Schema.v Substrait conversion both ways. Structural induction on nested fields.

Theorems (rocq/theories/Props/C36.v): `C36_logical_schema_partial`, `C36_physical_schemas_agree_partial`, `C36_written_schema_partial`, `C36_refuted_nested`, `C36_refuted_file`. Top-level names, ids and types proved; the physical schema operations use is the one stored; nested ids, nullability and item names are lost (refuted), and File columns give disagreeing physical schemas (refuted).

### C37 Field ids are unique and stable (proved)

Model/Schema.v assign_field_ids. Nested induction; stability from the history invariant.

Theorems (rocq/theories/Props/C37.v): `C37_ids_are_numbered`, `C37_numbering_keeps_fields`, `C37_ids_are_stable`. Numbering, preservation and stability over all histories.

### C38 Random-access file instructions cover the addresses (proved)

Model/RandomAccess.v build_file_instructions. List induction on runs.

Theorems (rocq/theories/Props/C38.v): `C38_cover`, `C38_same_when_distinct`, `C38_takes`, `C38_order`. Covers each given address exactly once; the order is kept exactly for addresses sorted file by file.

### C39 Random access by index equals sequential read (partial)

Model/RandomAccess.v sources. Reads by index against the sequential read.

Theorems (rocq/theories/Props/C39.v): `C39_arrow`, `C39_batch`, `C39_refuted`, `C39_array_record_partial`, `C39_array_record_same_partial`. Proved for the table-backed source and for batches. Refuted for the default single-field source over record files, which returns records in file order; there the claim holds when rows come in file order, and up to order when no record belongs to two rows.

### C40 Stored relative paths resolve to the same file (partial)

Model/Paths.v (posixpath join, normpath, relpath, commonprefix on strings). Place in the tree as list of names; induction.

Theorems (rocq/theories/Props/C40.v): `C40_round_trip`, `C40_same_place`, `C40_external_absolute_partial`, `C40_external_relative`, `C40_external_relative_iff`, `C40_refuted`, `C40_created_apart`, `C40_created_not_entry`. Round trip and same-place theorems hold for all strings; external files given by absolute paths are opened where named. Refuted for relative external paths (C40_refuted, C40_external_relative_iff): they are resolved below the storage location.

### C41 Loading external files adds exactly their rows (proved)

Model/Runner.v loaders. As C01, with external files as oracle content.

Theorems (rocq/theories/Props/C41.v): `C41_parquet_rows`, `C41_array_record_rows`, `C41_array_record_addresses`, `C41_parquet_no_copies`, `C41_array_record_no_copies`. Rows added, addresses of the added rows, and absence of copies, for every reachable state, file list and index function. External Parquet files must have the columns and types of the storage (external_ok).

### C42 Serializing then deserializing is the identity (proved)

Model/Serializers.v. Column-wise map; induction over fields.

Theorems (rocq/theories/Props/C42.v): `C42_round_trip`, `C42_serialized_columns`, `C42_deserialized_columns`, `C42_create`. Batches whose values round-trip through the field serializers round-trip as a whole; other columns pass through unchanged.

### C43 Views survive materialization metadata (partial)

Model/Views.v (UDF files, logical plans, rebuild). Structural induction on views; UDF files survive.

Theorems (rocq/theories/Props/C43.v): `C43_rebuilt_partial`, `C43_rebuilt_on_main`, `C43_materializes`, `C43_branch_refuted`, `C43_directory_refuted`. C43_rebuilt_partial: a view of maps and filters over a dataset on main is rebuilt exactly, whatever happens to the storages later and from whichever directory. C43_rebuilt_on_main: for a dataset opened on any branch the rebuilt view is the same composition over main. C43_materializes: every such view has a plan and the storage is created with its schema, keys and record fields. C43_branch_refuted and C43_directory_refuted: the full claim is false, since the plan does not record the branch and keeps a relative source location.

### C44 Create accepts exactly valid schemas (partial)

Model/Schema.v validate_logical_schema. Boolean reflection.

Theorems (rocq/theories/Props/C44.v): `C44_input_error_iff_invalid_partial`, `C44_refuted_ambiguous`. Proved when key and record field names are unambiguous; otherwise refuted (KeyError).

### C45 Every accepted schema can be written (partial)

Model/Schema.v, Model/AppendOp.v. Totality of append (AppendTotal.v), of key filters.

Theorems (rocq/theories/Props/C45.v): `C45_append_succeeds_partial`, `C45_key_filters_work_partial`, `C45_refuted_record_first`, `C45_refuted_struct_first`, `C45_refuted_null_keys`. Appends succeed and key filters work for schemas whose keys precede nested and record fields and whose record fields come last. Refuted for record field first, struct first, and row groups of null keys.

### C46 Data files are never modified (proved)

Model/Base.v file-system steps. Every written path is fresh or the entry point.

Theorems (rocq/theories/Props/C46.v): `C46_files_immutable`. All files but the entry point keep their content over every history, crashes included.

### C47 New tags and branches start where the user stands (partial)

Model/Storage.v add_reference. Direct.

Theorems (rocq/theories/Props/C47.v): `C47_refuted`, `C47_main_partial`, `C47_points_at_partial`. refuted: references start at main's head, not at the head of the current branch; exact starting point proved

### C48 Deleting nothing is a no-op (partial)

Model/DeleteOp.v, Model/Runner.v. Exact outcome by cases.

Theorems (rocq/theories/Props/C48.v): `C48_refuted`, `C48_outcome_partial`, `C48_skipped_partial`. Refuted as stated: deleting nothing returns FAILED instead of SKIPPED when the statistics leave no candidate file or a candidate file is empty. Proved: the exact outcome, and that the storage never changes.

### C49 Catalog lists and loads what was created (partial)

Model/Catalog.v over a machine with many storages. Histories of calls.

Theorems (rocq/theories/Props/C49.v): `C49_lists_created_partial`, `C49_created_listed`, `C49_listed_once`, `C49_refuted`, `C49_load_returns_it`, `C49_load_missing`, `C49_create_existing`. Proved for names that are single directory names; a name with a slash is created and loadable but never listed (C49_refuted).

### C50 Patch merging is order-preserving concatenation (proved)

Model/Runner.v merge_patches, Model/Storage.v patch application. Fold laws.

Theorems (rocq/theories/Props/C50.v): `C50_merge_concatenates`, `C50_merged_commit`. Merging concatenates; committing the merged patch equals committing the parts in turn.

### C51 Calls on tags and branches do what they say, or nothing (proved)

Model/Storage.v references, Model/System.v run_edit. Case analysis on every call against a table of preconditions, faults and effects (Spec/References.v).

Theorems (rocq/theories/Props/C51.v): `C51_references`. Every call on references through an up-to-date handle; stale handles are C19.

### C52 Reading a view returns the view of the rows (proved)

Model/ViewRead.v. Structural induction on the view; the bottom read is related to the local read of the dataset (C31, C26).

Theorems (rocq/theories/Props/C52.v): `C52_view_of_rows`, `C52_errors`. User functions act row by row and are total; transforms ask for columns their input has.

### C53 A filter on a view filters the view (partial)

Model/ViewRead.v. False: filter_ is pushed below the transforms. Proved when the filter cannot tell a source row from the rows made of it.

Theorems (rocq/theories/Props/C53.v): `C53_filter_partial`, `C53_refuted`. Refuted: the filter is applied to the source rows. Partial: views on which the filter says the same of a source row and the rows made of it.

### C54 Rows of a view have the columns of its schema (partial)

Model/ViewRead.v, Model/Views.v. False for filters with input_fields; otherwise structural induction.

Theorems (rocq/theories/Props/C54.v): `C54_columns_partial`, `C54_refuted`. Refuted for filters with input_fields. Partial: filters that read all columns.

### C55 A refresh that stops early leaves a version of the source (partial)

Model/Refresh.v. Invariant of the refresh loop: the storage holds a committed chain of whole snapshots, plus files no snapshot lists; every exit of the loop ends there. Missing: as C34, row counts are assumed exact.

Theorems (rocq/theories/Props/C55.v): `C55_stops_at_version_partial`, `C55_jobs_count`. Versions on the way, for any result; hypotheses as for C34 (exact row counts, unique keys).

### C56 A filter on keys reads only files that may match (partial)

Model/Falsify.v, Model/Storage.v (data_files). Structural induction: the built filter on statistics is false exactly when the independent predicate ruled_out holds; order facts on scalars.

Theorems (rocq/theories/Props/C56.v): `C56_files_left_partial`. Exact for and/or of comparisons with non-NaN literals, when every file records ranges for the keys; not for negation and key != key (C04 has the counterexamples).

### C57 Distributed insert and upsert behave like the local ones (partial)

`ray_insert_op` (Model/RayOps.v) is analysed like `insert_op`. The check per file is shown to equal one check over all files of the file set (`check_files`, `listed_rows`); the split write adds a permutation of the input (`written_by_perm`). Success of the write is total over typed rows (`ray_write_total`); manifests of different actors are distinct (`ray_append_new`), so the commit accepts the merged patch (`fn_outcome`). Upsert reuses the exact description of the local delete and its totality.

Theorems (rocq/theories/Props/C57.v): `C57_insert_outcomes_partial`, `C57_upsert_replaces_partial`, `C57_upsert_outcomes_partial`. Both outcomes of insert and of upsert are proved exactly, under the conditions C08 and C09 have for the local runner (keys before nested and record fields, records last, typed rows, no NaN key). Upsert: rows lost are described exactly, as for C09 (the defect of local delete is shared).

### C58 Distributed calls that do not succeed change nothing (partial)

Each body satisfies `body_ok` (only new files are written); `fn_unchanged` lifts this to reads through all handles. `ray_append_outcome` combines totality of the writers with `fn_outcome`.

Theorems (rocq/theories/Props/C58.v): `C58_append_unchanged`, `C58_append_from_unchanged`, `C58_insert_unchanged`, `C58_delete_unchanged`, `C58_append_succeeds_partial`. The five statements about calls that do not succeed are full. The statement that appends of fitting rows succeed is partial: keys before nested and record fields, records last, no NaN key (see C45).

### C59 Joins of views return the inner join of the views' rows (partial)

Model/ViewJoin.v run_join_read, sharing join_sides with Model/Join.v. `view_side`: a good side satisfies the record `side_at` of Proofs/Joins.v, on which `joined_ok` and `joined_total` rest; the read of a side with a range filter is the view of the source rows in the range (C53's argument), and keys are kept.

Theorems (rocq/theories/Props/C59.v): `C59_views_partial`, `C59_returns_partial`, `C59_refuted_key`, `C59_refuted_order`, `C59_refuted_stale`. C59_views_partial: a join of views that returns gives exactly the inner join of the views' rows, for views that keep the join key and its field ID; C59_returns_partial: when it returns. The full claim is false: C59_refuted_key (views that change the key), C59_refuted_order (views with columns in another order), C59_refuted_stale (one dataset opened twice). Missing: NaN keys, keys behind nested columns, and the flattening of addresses (C64). Both sides ask for columns they have (own_columns; requests for which this fails are described in C63).

### C60 Options of a join read are obeyed or rejected (partial)

Model/ViewJoin.v run_join_read, reload_sources and join_version. Reloads of reachable handles succeed (`sources_reload`); the rest is case analysis. Refutations by computation.

Theorems (rocq/theories/Props/C60.v): `C60_raises_partial`, `C60_error_partial`, `C60_refuted_filter`, `C60_refuted_version`. C60_raises_partial, C60_error_partial: fields, reference_read, and a version with two sources raise. The full claim is false: C60_refuted_filter (a filter is ignored), C60_refuted_version (a version of a dataset joined with itself is ignored).

### C61 Replaying the diff of a view reproduces the view (partial)

Model/ViewDiff.v run_view_diff over the distributed diff (C33). `process_served`: transforms on full tables give view_rows; `apply_by_rows`: replaying depends only on the changed rows; `apply_seen`: a view that keeps keys commutes with replaying; then C24.

Theorems (rocq/theories/Props/C61.v): `C61_rows`, `C61_error`, `C61_replay_partial`, `C61_replay_keyed_partial`, `C61_refuted_key`. C61_rows, C61_error: what the diff of a view reports, exactly. C61_replay_partial and C61_replay_keyed_partial: replaying it, for views that keep the primary keys, under the conditions of C24. The full claim is false: C61_refuted_key (a view that changes the key), and by C24's witnesses for views that keep it.

### C62 Versions of a materialized view mean the same to read and diff (partial)

C31's argument for the read; C61's replay theorem for the source, C34 and the ids of refreshes for versions in step; witnesses for the refutations.

Theorems (rocq/theories/Props/C62.v): `C62_read`, `C62_diff_partial`, `C62_in_step_partial`, `C62_refuted_skipped`, `C62_refuted_tag`. C62_read: reads of a materialized view, in full. C62_diff_partial: replaying its diff, between versions at which its snapshot k holds the view of the source's snapshot k; C62_in_step_partial: refreshes that succeed for every snapshot keep it so. The full claim is false: reads take versions of the materialized view, diffs those of the source (C62_refuted_skipped, C62_refuted_tag).

### C63 A join is refused, with a user error, exactly when it cannot be computed (partial)

Model/Join.v make_join, key_range_in. Case analysis of the checks against the independent valid_request; list facts for the columns of the result; for reads, the first side of the join that raises.

Theorems (rocq/theories/Props/C63.v): `C63_error`, `C63_accepted`, `C63_refused_partial`, `C63_exact`, `C63_own_partial`, `C63_no_key`, `C63_empty`, `C63_refuted_column`, `C63_refuted_repeated`. C63_error, C63_accepted: only UserInputErrors, and every valid request is accepted with the right columns. C63_refused_partial: only valid requests are accepted, without reference reads and repeated names and when the right side has the key. C63_exact: exactly what is accepted, odd requests included. C63_own_partial: sides read columns they have, unless one reads addresses and the other has record fields. The full claim is false: a record field of the other side is accepted as a column when addresses are read (C63_refuted_column), a list repeating the key counts as another column (C63_refuted_repeated), a right view without the key is accepted and raises when read (C63_no_key).

### C64 Joins by reference return the record addresses their sides read (partial)

Model/JoinFold.v: flatten, the join, _fold_addresses and select. Folding a permutation of the parts of distinct addresses and other columns gives a permutation of the addresses and these columns (Proofs/JoinFold.v); rows read have addresses exactly in the record fields (Proofs/JoinFoldRun.v); so the call agrees with run_join of C35. Model/ViewJoinFold.v: the same with views as sides; the call agrees with run_join_read of C59 when the addresses are in declared record fields (Proofs/ViewJoinFold.v).

Theorems (rocq/theories/Props/C64.v): `C64_rows_partial`, `C64_returns_partial`, `C64_refuted_name`, `C64_refuted_twice`, `C64_views_partial`, `C64_views_return_partial`, `C64_filters`, `C64_refuted_undeclared`. C64_rows_partial, C64_returns_partial: addresses come back in the rows and fields they belong to, and the join returns as C35 says, when column names are distinct and no column is called like a part of an address. C64_views_partial, C64_views_return_partial: the same for views as sides (as C59) that declare the record fields in which they hand on addresses; C64_filters: datasets and filters always do. The full claim is false: C64_refuted_name (a column called r._FILE), C64_refuted_twice (a record field listed twice), C64_refuted_undeclared (a map that does not declare its record fields). Other limits as for C35 and C59.

### C65 index_files lists the files that hold a version (partial)

Model/Versions.v: run_index_files. The call lists the manifest rows of the snapshot that a read resolves the version to (Proofs/IndexFiles.v), and the read returns the rows of their files (Proofs/ReadRun.v).

Theorems (rocq/theories/Props/C65.v): `C65_files_partial`, `C65_error_partial`, `C65_refuted_stale`. C65_files_partial, C65_error_partial: for handles whose metadata is the stored one. The full claim is false: index_files does not reload, so a handle opened before another writer's commit lists old files and does not know new versions (C65_refuted_stale).

## Findings

Behaviours of the code that contradict the properties, each with a witness proved
in Coq:

1. C04: `~(k = 5)` over a file with keys 5 and 6 and `x != 5.0` over a file with NaN
   lose rows; `a != b` of two keys loses files whose ranges overlap; a comparison
   with a null literal raises; a struct before the key whose
   field is named like the key loses rows (core/manifests/falsifiable_filters.py).
2. C05/C08/C10: with a struct field before the key, statistics of another leaf
   column are recorded for the key, so inserts accept present keys.
3. C06/C07/C09: a delete (also the one inside upsert) removes rows on which the
   filter is null; and when it rewrites no file, the untouched files that share a
   manifest with a deleted file are lost (core/ops/delete.py).
4. C11/C12/C13/C19: tag and branch edits write back the metadata a handle holds,
   without reloading: tags, branches and commits of others are lost. After
   remove_branch the snapshot ids of its commits are given out again.
5. C17: check and write of a commit are separate steps; two committers can both
   succeed and one commit is lost.
6. C22: reload() returns True after the handle's own commit.
7. C24/C28: after a delete that loses rows, replaying the diff and the recorded row
   count are wrong (C24_refuted_lossy, C28_refuted). After a distributed delete that
   changes two files of one manifest more rows are read than are counted, and the
   diff does not lead there (C24_refuted_distributed, C28_refuted_distributed).
8. C25: append_parquet writes no change log, so a diff over it raises.
9. C27: diff with an absent start version raises UserInputError instead of
   VersionNotFoundError.
10. C29: a delete subtracts the sizes of all candidate files, also of untouched ones.
11. C32: when touched files share a manifest, the Ray delete keeps deleted rows and
    duplicates others.
12. C34: a source snapshot without rows in the view is skipped and the ids drift
    apart, so the next refresh adds rows twice; so does refreshing through a stale
    handle. Refreshing again raises UserInputError.
13. C35: a range in which one side has no rows raises TypeError under Ray 2.9.1;
    a manifest with only null keys raises TypeError.
14. C36: nested ids, nullability and list item names are lost in storage.
15. C39: the default single-field random access returns records in file order, and a
    record shared by two rows once.
16. C40: relative external paths are resolved below the storage location.
17. C43: a stored plan forgets the branch of the source; a relative source location
    depends on the working directory.
18. C44/C45: ambiguous names raise KeyError; accepted schemas with a record or struct
    field before the key cannot be written; row groups of null keys fail.
19. C47: new references start at the head of main whatever the current branch.
20. C48: deleting nothing returns FAILED when no file is a candidate.
21. C49: a dataset whose name has a slash is created and loaded but not listed.
22. C53: the filter of a read of a view selects rows of the source, not of the view.
23. C54: a view filtered with `input_fields` returns only those columns, though its
    schema has all; a materialized view of it raises KeyError when refreshed.
24. C32: when the statistics leave no file for the filter, a distributed delete is
    skipped while the local one reports a failure (C32_case_exact).
25. C24: after a branch is removed its snapshot IDs are given out again, so a snapshot
    of the removed branch can be a child of a replaced one; their diff does not lead
    from the one to the other (C24_refuted_removed).
26. C59: a join of views takes its key ranges from the statistics of the datasets below,
    by the field ID the key has in the view, and applies them below the functions.
    Views that change the key (C59_refuted_key), or only reorder the columns
    (C59_refuted_order), lose rows.
27. C59: a dataset opened twice and joined with itself: only the right handle is
    reloaded, so rows written by others are missed on the left (C59_refuted_stale).
28. C60: a filter given to a join read is ignored (C60_refuted_filter); so is a version
    when both sides have one source (C60_refuted_version).
29. C61: the diff of a view names deleted rows by their keys in the source; for a view
    that changes keys it cannot be replayed (C61_refuted_key).
30. C10: the check at commit compares snapshot IDs only. When the snapshot a transaction
    started from is lost (a stale handle edits tags or branches, or the branch is removed
    and added again) and another insert takes its ID, the transaction commits and a key is
    in the dataset twice (C10_refuted_stale, C10_refuted_removed).
31. C62: reads of a materialized view take versions of its own storage, diffs take
    versions of the source: after a source snapshot that gives no rows the numbers
    differ (C62_refuted_skipped), and a tag of the materialized view is unknown to
    diff (C62_refuted_tag).
32. C10: a transaction keeps the branch it began on, while its operation reads the branch
    its storage object is on: if another thread sets the branch in between, an insert looks
    for its keys on one branch and commits on the other (C10_refuted_switched).
33. C63: join() checks less than it needs. With a reference read on one side, record
    fields of the other side are accepted as its columns (C63_refuted_column); a list
    that repeats the key counts as naming another column (C63_refuted_repeated); a right
    view whose map dropped the key is accepted. Reading the first and the last raises.
34. C64: a join that reads addresses splits a record field `r` into columns `r._FILE` and
    `r._ROW_ID`. If a side has a column of that name the join raises KeyError. It also
    raises for a dataset whose list of record fields names a field twice, which create()
    accepts.
35. C64: `output_record_fields` of `map_batches` is optional and empty by default. A view that
    hands the addresses of a record field on without declaring it can be read by
    reference, but a join that reads it by reference raises: the addresses are split for
    Arrow, and only declared fields are put together again.
36. C65: reads reload the metadata, `index_files` (like `versions`) does not. A dataset opened
    before another writer's commit reads the new rows and lists the old files.

## Mutation tests

`seeded/LOG.jsonl`: one line per wrong model tried. The edits are made in a copy of the
development outside this directory, which is then rebuilt.

- `first_failures` is what was observed: the files (and lines or theorems) at which the
  build stopped.
- `theorems_failed` is derived from it: the theorems of every property file that depends
  on a failing file. It is recomputed from the current dependencies, so it can name
  theorems added after the mutant was run, and theorems that are not built only because a
  file they import is not. A proof that stops can also be a script that is bound to the
  old text; that a claim is false under the mutant was not checked one by one.
- Mutants with no failures survived. Where a theorem was added or changed for one,
  `theorems_tightened` and `note` say so; the others are explained in `note`.
