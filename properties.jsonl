{"id": "C01", "title": "Append adds exactly the input rows", "statement": "After a successful append/append_from, a full read returns the rows readable before followed by every input row exactly once and in input order, whatever the batch sizes and whatever the row-group and file-size limits (so however many Parquet row groups and files the input is cut into).", "quantifier": "every reachable dataset state, every sequence of input tables, every FileOptions limit, every sequence of sizes reported for in-memory tables", "why_tests_cant": "The split points depend on byte sizes of accumulated batches against two thresholds; tests use a handful of batches that all fit in one file.", "anchors": ["python/src/space/core/ops/append.py:LocalAppendOp.write/_write_arrow/_finish_index_writer/finish", "python/src/space/core/runners.py:LocalRunner.append/append_from"]}
{"id": "C02", "title": "Record payloads come back unchanged", "statement": "For every record field and every row of the dataset, the address stored in the index file resolves to the bytes the user appended for that row, across record-file rollover, later appends, deletes and rewrites of index files.", "quantifier": "every history of operations, every payload, every record-file size limit", "why_tests_cant": "Addresses are (file,row id) pairs maintained by counters that reset on rollover; tests never roll a record file over or chain rewrites.", "anchors": ["python/src/space/core/ops/append.py:_write_record_column/_finish_record_writer", "python/src/space/core/ops/utils.py:address_column", "python/src/space/core/ops/read.py:read_record_column", "python/src/space/core/ops/delete.py:FileSetDeleteOp.delete"]}
{"id": "C03", "title": "Append bookkeeping agrees with the files written", "statement": "The patch produced by an append has num_rows equal to the number of input rows, lists a manifest whose rows name exactly the index files written with their true row counts, and a change log whose added-row entries name exactly these files with all rows; no patch is produced iff the input has no rows.", "quantifier": "every batch sequence and every size limit", "why_tests_cant": "Counters are updated in four places during rollover; unit tests check one or two literal byte counts.", "anchors": ["python/src/space/core/ops/append.py:LocalAppendOp", "python/src/space/core/manifests/index.py:IndexManifestWriter.write/finish", "python/src/space/core/ops/utils.py:update_index_storage_stats"]}
{"id": "C04", "title": "Filtered read equals filtering the full read", "statement": "read(filter_=f) returns exactly the rows of the unfiltered read for which f is true: skipping index files by manifest statistics never drops a matching row.", "quantifier": "every filter expression, every reachable dataset state, every null placement", "why_tests_cant": "Pruning is a symbolic rewriting of an arbitrary expression tree; soundness ranges over all trees and all data, and one unsound case silently loses rows.", "anchors": ["python/src/space/core/manifests/falsifiable_filters.py:build_manifest_filter", "python/src/space/core/storage.py:Storage.data_files", "python/src/space/core/ops/read.py:FileSetReadOp"]}
{"id": "C05", "title": "Manifest min/max statistics bound the data", "statement": "For every index file in a snapshot and every primary key, the min and max recorded in the manifest are a lower and an upper bound of all non-null, non-NaN values of that key in the file.", "quantifier": "every schema accepted by create, every file content, every division into row groups", "why_tests_cant": "The column whose statistics are read is chosen by position; only schemas with nested columns before the key expose a wrong column, and merging is over arbitrarily many row groups.", "anchors": ["python/src/space/core/manifests/index.py:_FieldStats.merge/IndexManifestWriter.write", "python/src/space/core/schema/arrow.py:field_id_to_column_id_dict"]}
{"id": "C06", "title": "Delete removes exactly the matching rows", "statement": "After a successful delete(f), a full read returns, as a multiset, exactly the previous rows for which f is not true.", "quantifier": "every reachable dataset state (any grouping of files into manifests), every filter on which no row evaluates to null, every file limit", "why_tests_cant": "Delete rewrites files and whole manifests; the result depends on which other files share a manifest with a touched file, which no test varies.", "anchors": ["python/src/space/core/ops/delete.py:FileSetDeleteOp.delete", "python/src/space/core/ops/append.py:LocalAppendOp.finish", "python/src/space/core/storage.py:_patch_manifests"]}
{"id": "C07", "title": "Delete keeps rows on which the filter is null", "statement": "A row for which the delete filter evaluates to null (for which a filtered read would not return it) survives delete(f).", "quantifier": "every filter, every row with null fields", "why_tests_cant": "Needs three-valued evaluation of a negated user expression over all null placements; no test has nulls.", "anchors": ["python/src/space/core/ops/delete.py:FileSetDeleteOp.__init__", "python/src/space/core/ops/read.py:FileSetReadOp"]}
{"id": "C08", "title": "Insert fails iff a key already exists", "statement": "insert(data) FAILS without changing the dataset if data repeats a primary key or some input key is already present; otherwise it succeeds and the dataset becomes the old rows followed by the input rows.", "quantifier": "every reachable dataset state, every input with non-null keys", "why_tests_cant": "Existence is decided through manifest pruning plus a filtered read over an or-of-ands expression built from the input.", "anchors": ["python/src/space/core/ops/insert.py:LocalInsertOp/filter_matched", "python/src/space/core/ops/utils.py:primary_key_filter"]}
{"id": "C09", "title": "Upsert replaces by primary key", "statement": "After a successful upsert(data) the dataset is, as a multiset, the old rows whose key does not occur in data plus all rows of data.", "quantifier": "every reachable dataset state, every input with distinct non-null keys", "why_tests_cant": "Combines delete, append and patch merging on arbitrary file layouts.", "anchors": ["python/src/space/core/ops/insert.py:LocalInsertOp._write_arrow", "python/src/space/core/ops/utils.py:merge_patches"]}
{"id": "C10", "title": "Primary keys stay unique", "statement": "If a dataset is only modified by insert, upsert and delete then no two readable rows ever share a primary key.", "quantifier": "every history of insert/upsert/delete with arbitrary inputs and outcomes", "why_tests_cant": "An invariant over unbounded histories.", "anchors": ["python/src/space/core/ops/insert.py", "python/src/space/core/ops/delete.py", "python/src/space/core/runners.py"]}
{"id": "C11", "title": "Job outcome tells what happened to the stored state", "statement": "A mutating call that returns SUCCEEDED adds exactly one snapshot, child of the branch head, and moves only that branch; a call that returns SKIPPED or FAILED or raises leaves every version of the dataset readable exactly as before.", "quantifier": "every mutating operation, input, reachable state and failure", "why_tests_cant": "Failures can occur at many points after data files have been written; all must leave the versions untouched.", "anchors": ["python/src/space/core/runners.py:StorageMixin.transactional", "python/src/space/core/storage.py:Transaction/Storage.commit"]}
{"id": "C12", "title": "Time travel: committed snapshots are immutable", "statement": "Once a snapshot is committed, reading that snapshot id returns the same rows after any later sequence of operations.", "quantifier": "every history of appends, deletes, upserts, tag and branch operations, reloads", "why_tests_cant": "Quantifies over all future histories; id allocation is recomputed from refs on reload so only particular sequences break it.", "anchors": ["python/src/space/core/storage.py:Storage.__init__/_next_snapshot_id/commit/_remove_reference", "python/src/space/core/runners.py:LocalRunner.read(version)"]}
{"id": "C13", "title": "Tags never move", "statement": "A tag, once added, resolves to the same snapshot and reads the same rows until that tag is removed, whatever is committed on any branch and whatever other references are added or removed.", "quantifier": "every history not removing that tag (operations of one handle or of handles that are up to date)", "why_tests_cant": "Quantifies over all histories.", "anchors": ["python/src/space/core/storage.py:add_tag/lookup_reference/version_to_snapshot_id/commit"]}
{"id": "C14", "title": "Branch isolation", "statement": "A commit on one branch changes the rows read on that branch only: the head and content of main and of every other branch and tag are unchanged.", "quantifier": "every state, every pair of references, every operation", "why_tests_cant": "All pairs of branches and all operations.", "anchors": ["python/src/space/core/storage.py:Storage.commit/set_current_branch/current_snapshot_id"]}
{"id": "C15", "title": "Snapshot ids grow along history", "statement": "A new snapshot's id is larger than its parent's and than the head of main and every live reference, so the ids along any parent chain strictly decrease and every chain ends at snapshot 0.", "quantifier": "every history including failed commits, reloads and reference removal", "why_tests_cant": "Counter state lives in memory and is rebuilt on reload; needs induction over histories.", "anchors": ["python/src/space/core/storage.py:Storage.__init__/_next_snapshot_id/commit"]}
{"id": "C16", "title": "Concurrent transactions on a branch: first committer wins", "statement": "If another commit on the same branch lands between the start and the commit of a transaction, the transaction's commit is FAILED and changes nothing; if it succeeds, the head it replaces is the one it started from, so committed transactions are equivalent to a serial order. (Commit taken as one atomic step.)", "quantifier": "every interleaving of starts, operations and commits of any number of handles and transactions", "why_tests_cant": "All schedules.", "anchors": ["python/src/space/core/storage.py:Transaction.__enter__/commit"]}
{"id": "C17", "title": "Commit is atomic between concurrent writers", "statement": "When two writers run commit at the same time on the same branch, at most one reports success, and no successfully committed snapshot is lost.", "quantifier": "every interleaving of the individual read and write steps of commit", "why_tests_cant": "Schedule-dependent: needs a specific interleaving of file system steps.", "anchors": ["python/src/space/core/storage.py:Transaction.commit/Storage.commit/_write_metadata"]}
{"id": "C18", "title": "Concurrent commits on different branches both survive", "statement": "Transactions running concurrently on different branches (commits atomic) all succeed and none overwrites another's snapshot or branch head.", "quantifier": "every interleaving, any number of branches and handles", "why_tests_cant": "All schedules.", "anchors": ["python/src/space/core/storage.py:Transaction.commit/reload/commit"]}
{"id": "C19", "title": "Tag and branch edits never lose committed data", "statement": "add_tag, add_branch, remove_tag and remove_branch, issued through any open handle at any time, leave every previously committed snapshot and branch head in place.", "quantifier": "every state of every handle (including handles opened before other handles' commits)", "why_tests_cant": "Needs two handles with particular staleness; tests use one handle.", "anchors": ["python/src/space/core/storage.py:_add_reference/_remove_reference/_write_metadata"]}
{"id": "C20", "title": "Crash atomicity", "statement": "If the process dies at any point during any operation, loading the dataset afterwards succeeds and yields either the exact state before the operation or the exact state after it.", "quantifier": "every operation, every crash point between (and inside) file system writes", "why_tests_cant": "Every prefix of the write sequence; cannot be enumerated by unit tests.", "anchors": ["python/src/space/core/fs/arrow.py:ArrowLocalFileSystem.write_proto", "python/src/space/core/storage.py:_write_metadata/commit/_initialize_files"]}
{"id": "C21", "title": "Create is exclusive and load finds what was created", "statement": "Creating a dataset where one exists raises StorageExistError and leaves the existing dataset unchanged; loading after create returns the created schema, keys, record fields and an empty snapshot 0.", "quantifier": "every schema, every pre-existing state", "why_tests_cant": "All schemas and states.", "anchors": ["python/src/space/core/storage.py:Storage.create/_initialize_files/load", "python/src/space/core/fs/arrow.py:write_proto"]}
{"id": "C22", "title": "Reads see the latest commit; reload reports only foreign writes", "statement": "A read or diff through any handle sees the newest committed metadata. reload() returns True exactly when some other writer changed the storage since this handle last synchronised.", "quantifier": "every interleaving of commits by several handles", "why_tests_cant": "Depends on comparison of stored path strings between handles; needs multi-handle histories.", "anchors": ["python/src/space/core/storage.py:Storage.reload", "python/src/space/core/runners.py:StorageMixin.reload"]}
{"id": "C23", "title": "Diff walks exactly the commits between two versions", "statement": "diff(a,b) visits exactly the snapshots on the parent chain from b back to a, a excluded, oldest first, and raises an input error iff a is not a proper ancestor of b.", "quantifier": "every snapshot forest, every pair of versions", "why_tests_cant": "All branch topologies.", "anchors": ["python/src/space/core/ops/change_data.py:ordered_snapshot_ids"]}
{"id": "C24", "title": "Replaying a diff reproduces the end version", "statement": "Applying the changes of diff(a,b) in order to the rows of version a (removing deleted rows, then adding added rows, per snapshot) gives, as a multiset, the rows of version b.", "quantifier": "every history between the two versions, every mix of append, insert, upsert, delete", "why_tests_cant": "Induction over the history; change logs hold bitmaps into files rewritten later.", "anchors": ["python/src/space/core/ops/change_data.py:LocalChangeDataReadOp", "python/src/space/core/ops/delete.py:_build_bitmap", "python/src/space/core/ops/read.py:_bitmap_mask"]}
{"id": "C25", "title": "Diff is available for every committed snapshot", "statement": "diff over any ancestor range of committed snapshots returns (does not raise), whichever mutating calls created the snapshots.", "quantifier": "every history including append_parquet and append_array_record", "why_tests_cant": "Depends on which operations populate a change log.", "anchors": ["python/src/space/core/ops/change_data.py:LocalChangeDataReadOp.__init__", "python/src/space/core/loaders/parquet.py:LocalParquetLoadOp", "python/src/space/core/storage.py:commit"]}
{"id": "C26", "title": "Batching, projection and reference reads do not change the data", "statement": "Concatenating the batches of read(batch_size=n) gives the same table for every n; no batch exceeds n rows; projecting to fields commutes with reading; reference_read returns addresses that resolve to what a normal read returns.", "quantifier": "every batch size, field subset, dataset state", "why_tests_cant": "All sizes and chunk layouts.", "anchors": ["python/src/space/core/ops/read.py:FileSetReadOp.__iter__/_read_index_and_record", "python/src/space/core/options.py:ReadOptions"]}
{"id": "C27", "title": "Version resolution and listing", "statement": "read(version=v) and diff resolve integers to snapshot ids and names to the referenced snapshot, raising VersionNotFoundError exactly when absent; versions() lists every snapshot, once per reference pointing at it and once without a name if there is none.", "quantifier": "every metadata state, every version argument", "why_tests_cant": "All reference tables.", "anchors": ["python/src/space/core/storage.py:version_to_snapshot_id/lookup_reference/snapshot/versions"]}
{"id": "C28", "title": "Snapshot row count is the number of readable rows", "statement": "In every snapshot storage_statistics.num_rows equals the number of rows a full read of that snapshot returns.", "quantifier": "every history of operations", "why_tests_cant": "Invariant over histories.", "anchors": ["python/src/space/core/storage.py:Storage.commit", "python/src/space/core/ops/delete.py:FileSetDeleteOp.delete", "python/src/space/core/ops/utils.py"]}
{"id": "C29", "title": "Snapshot byte statistics equal the sum over live files", "statement": "In every snapshot the index byte statistics equal the sum of the byte sizes recorded in its manifests.", "quantifier": "every history of operations, every file layout", "why_tests_cant": "Depends on which files were pruned and which share manifests.", "anchors": ["python/src/space/core/ops/delete.py:_read_index_statistics/FileSetDeleteOp.delete"]}
{"id": "C30", "title": "Distributed append writes every row exactly once", "statement": "Ray append splits a table over any number of workers so that the shards cover every row exactly once; append_from assigns each source to exactly one worker; the merged patch accounts for all workers' files and rows.", "quantifier": "every row count (0 included), every parallelism >= 1, every number of sources", "why_tests_cant": "Off-by-one over all (rows, workers) pairs.", "anchors": ["python/src/space/ray/ops/append.py:RayAppendOp.write/write_from/finish", "python/src/space/core/ops/utils.py:merge_patches"]}
{"id": "C31", "title": "Row-range blocks read every row exactly once", "statement": "With row-range blocks, the union of the blocks of a file, with or without a filter, is the file's (filtered) table: each row read once, in order, and no block larger than batch_size.", "quantifier": "every file size, batch size, filter selectivity", "why_tests_cant": "All sizes; the slice bounds come from unfiltered counts but are applied to filtered tables.", "anchors": ["python/src/space/ray/data_sources.py:get_read_tasks", "python/src/space/core/ops/read.py:FileSetReadOp.__iter__/_bitmap_mask"]}
{"id": "C32", "title": "Distributed delete equals local delete", "statement": "delete(f) through the Ray runner leaves the same multiset of rows as delete(f) through the local runner.", "quantifier": "every file layout, every filter", "why_tests_cant": "Wrong only when several touched files share a manifest; tests have one file per manifest.", "anchors": ["python/src/space/ray/ops/delete.py:RayDeleteOp", "python/src/space/core/ops/utils.py:merge_patches", "python/src/space/core/storage.py:_patch_manifests"]}
{"id": "C33", "title": "Distributed diff partitions the change files", "statement": "Ray change-data reading distributes the changed files of a snapshot over streams so that each file is in exactly one stream, for every number of streams.", "quantifier": "every number of changed files and streams", "why_tests_cant": "All pairs of sizes.", "anchors": ["python/src/space/ray/ops/change_data.py"]}
{"id": "C34", "title": "Refreshing a materialized view makes it equal the view", "statement": "After refresh() of a materialized view of a row-wise map/filter view that keeps primary keys, the MV's rows equal the view evaluated on the source version refreshed to; refreshing again without source changes has no effect.", "quantifier": "every source history, every row-wise transform, every sequence of refreshes", "why_tests_cant": "Relies on MV snapshot ids tracking source snapshot ids over whole histories.", "anchors": ["python/src/space/ray/runners.py:RayMaterializedViewRunner.refresh/_process_delete/_process_append", "python/src/space/core/ops/change_data.py"]}
{"id": "C35", "title": "Join pruning and partitioning lose nothing", "statement": "Joining restricted to the overlap of both sides' key ranges, and split into any disjoint ranges covering it, returns exactly the rows of the unrestricted inner join.", "quantifier": "every pair of datasets, every partitioning into ranges covering the overlap once", "why_tests_cant": "All data and partitions.", "anchors": ["python/src/space/ray/ops/join.py:RayJoinOp/_join_key_range/_range_to_filter"]}
{"id": "C36", "title": "Schema survives storage", "statement": "The logical schema of a loaded dataset has the same field names, types and top-level field ids, in order, as the schema given to create with ids assigned; deriving the physical schema from stored metadata and from the logical schema agree.", "quantifier": "every supported schema, arbitrarily nested", "why_tests_cant": "All nested schemas; names are stored in one flat depth-first list.", "anchors": ["python/src/space/core/schema/substrait.py:substrait_fields", "python/src/space/core/schema/arrow.py:arrow_schema/logical_to_physical_schema"]}
{"id": "C37", "title": "Field ids are unique and stable", "statement": "create assigns every field, at every nesting depth, a distinct id; ids are 0..n-1 in depth-first order.", "quantifier": "every schema", "why_tests_cant": "Arbitrary nesting.", "anchors": ["python/src/space/core/schema/field_ids.py:FieldIdManager"]}
{"id": "C38", "title": "Random-access file instructions cover the addresses", "statement": "The (file, skip, take) runs built for random access enumerate exactly the given record addresses, each once.", "quantifier": "every list of addresses", "why_tests_cant": "Run compression over arbitrary lists.", "anchors": ["python/src/space/core/random_access.py:build_file_instructions/_file_instruction"]}
{"id": "C39", "title": "Random access by index equals sequential read", "statement": "Element i of the random access source is the record of row i of the address table; batch access and single access agree.", "quantifier": "every dataset, every index list", "why_tests_cant": "All index lists and layouts.", "anchors": ["python/src/space/core/random_access.py:ArrowDataSource/RandomAccessDataSource", "python/src/space/core/ops/read.py:read_record_column"]}
{"id": "C40", "title": "Stored relative paths resolve to the same file", "statement": "Converting a full path under the storage location to the stored form and back gives the same path; a path supplied by the user for external files is later opened at the place the user named.", "quantifier": "every location string, every relative component list, every user path", "why_tests_cant": "All path strings.", "anchors": ["python/src/space/core/utils/paths.py:StoragePathsMixin", "python/src/space/core/loaders/array_record.py", "python/src/space/core/loaders/parquet.py"]}
{"id": "C41", "title": "Loading external files adds exactly their rows", "statement": "append_parquet adds exactly the rows of the matched Parquet files and append_array_record adds one row per record, addressed to that record, without copying.", "quantifier": "every set of external files, every index_fn output", "why_tests_cant": "All file sets.", "anchors": ["python/src/space/core/loaders/parquet.py:LocalParquetLoadOp", "python/src/space/core/loaders/array_record.py:LocalArrayRecordLoadOp"]}
{"id": "C42", "title": "Serializing then deserializing is the identity", "statement": "For every record batch, DictSerializer.deserialize(serialize(batch)) equals batch provided each field serializer round-trips; fields without serializer pass through.", "quantifier": "every batch and every set of field serializers", "why_tests_cant": "All batches.", "anchors": ["python/src/space/core/serializers/base.py:DictSerializer"]}
{"id": "C43", "title": "Views survive materialization metadata", "statement": "Rebuilding a view from the logical plan stored with a materialized view yields the same composition of transforms, functions, input fields, schema and keys over the same source.", "quantifier": "every chain of map and filter transforms", "why_tests_cant": "Arbitrary chains; UDFs are stored under generated names.", "anchors": ["python/src/space/core/transform/plans.py", "python/src/space/core/transform/udfs.py:to_relation", "python/src/space/core/views.py:load_view/MaterializedView"]}
{"id": "C44", "title": "Create accepts exactly valid schemas", "statement": "create raises an input error iff there is no primary key, a key or record field is missing from the schema, a record field is a key, or a key/record type is unsupported.", "quantifier": "every schema, key list, record field list", "why_tests_cant": "All combinations.", "anchors": ["python/src/space/core/schema/utils.py:validate_logical_schema"]}
{"id": "C45", "title": "Every accepted schema can be written", "statement": "For every schema accepted by create, appending well-typed rows succeeds, and filtered reads on the primary keys work.", "quantifier": "every accepted schema (field order, nesting)", "why_tests_cant": "Depends on column order and nesting relative to record fields and keys.", "anchors": ["python/src/space/core/ops/append.py:_write_arrow", "python/src/space/core/manifests/falsifiable_filters.py:_min_max"]}
{"id": "C46", "title": "Data files are never modified", "statement": "No operation ever overwrites or removes a data, record, manifest, change log or metadata file that some committed snapshot references; only the entry point file is replaced.", "quantifier": "every operation in every history", "why_tests_cant": "Universal over histories; underlies snapshot isolation.", "anchors": ["python/src/space/core/utils/paths.py:new_*_path", "python/src/space/core/fs/arrow.py", "python/src/space/core/ops/*"]}
{"id": "C47", "title": "New tags and branches start where the user stands", "statement": "add_branch(name) and add_tag(name) without a snapshot id point at the head of the handle's current branch.", "quantifier": "every state and current branch", "why_tests_cant": "Only differs when the current branch is not main.", "anchors": ["python/src/space/core/storage.py:_add_reference"]}
{"id": "C48", "title": "Deleting nothing is a no-op", "statement": "delete(f) when no row matches returns SKIPPED and changes nothing, whether or not the manifests could prove it.", "quantifier": "every state and filter", "why_tests_cant": "Result depends on whether pruning removed all files.", "anchors": ["python/src/space/core/ops/delete.py:_validate_files/FileSetDeleteOp.__init__", "python/src/space/core/runners.py:LocalRunner.delete"]}
{"id": "C49", "title": "Catalog lists and loads what was created", "statement": "A directory catalog lists exactly the names of datasets created in it and loading a name returns that dataset; creating an existing name fails without changing it.", "quantifier": "every sequence of catalog operations", "why_tests_cant": "All histories of names.", "anchors": ["python/src/space/catalogs/directory.py:DirCatalog"]}
{"id": "C50", "title": "Patch merging is order-preserving concatenation", "statement": "Merging patches concatenates their manifest additions, deletions and change logs in order and sums their statistics, ignoring empty patches, and is empty iff all are; so committing a merged patch equals applying all parts.", "quantifier": "every list of patches", "why_tests_cant": "All lists.", "anchors": ["python/src/space/core/ops/utils.py:merge_patches", "python/src/space/core/storage.py:_patch_manifests"]}
{"id": "C51", "title": "Calls on tags and branches do what they say, or nothing", "statement": "Through an up-to-date handle, add_tag, add_branch, remove_tag, remove_branch and set_current_branch succeed exactly when the name and snapshot make sense (a new name other than main and an existing snapshot to add; an existing reference of the right kind to remove or switch to; the current branch cannot be removed); then they change that one reference, or the handle's branch, and nothing else. Otherwise they raise the error of one of their faults and change nothing.", "quantifier": "every reachable state, handle, call, name and snapshot id", "why_tests_cant": "All combinations of reference kinds, names and current branches.", "anchors": ["python/src/space/core/storage.py:add_tag/add_branch/set_current_branch/_remove_reference"]}
{"id": "C52", "title": "Reading a view returns the view of the rows", "statement": "Reading a view (a tree of map_batches and filter over a dataset) at any version returns, in non-empty tables, the rows obtained by applying the transforms row by row to the rows a read of the dataset at that version returns, in the same order; it raises the error of that read if there is one.", "quantifier": "every view, every row-wise user function, every version, batch size and state", "why_tests_cant": "All trees of transforms and all row-wise functions.", "anchors": ["python/src/space/ray/runners.py:RayReadOnlyRunner.read", "python/src/space/core/transform/udfs.py", "python/src/space/core/transform/utils.py:ray_dataset"]}
{"id": "C53", "title": "A filter on a view filters the view", "statement": "Reading a view with filter_ returns exactly the rows of the view that match the filter.", "quantifier": "every view and filter", "why_tests_cant": "Depends on how transforms change the filtered columns.", "anchors": ["python/src/space/ray/runners.py:RayReadOnlyRunner.read", "python/src/space/core/transform/udfs.py:_ray_dataset"]}
{"id": "C54", "title": "Rows of a view have the columns of its schema", "statement": "Every row read from a view has exactly the columns of the schema the view reports, provided user functions return rows of the declared schema.", "quantifier": "every view", "why_tests_cant": "All trees of transforms with all choices of input fields.", "anchors": ["python/src/space/core/transform/udfs.py:FilterTransform", "python/src/space/core/views.py:filter"]}
{"id": "C55", "title": "A refresh that stops early leaves a version of the source", "statement": "Whether a refresh succeeds, reports a FAILED job or raises an exception midway, the materialized view afterwards holds the view of one complete version of the source on the way from the old to the requested version, never part of a snapshot's changes; a FAILED job is the last one reported, and the snapshot ID of the materialized view moves by the number of jobs that SUCCEEDED.", "quantifier": "every source history, view, target and point of failure", "why_tests_cant": "Failures can strike at any change of any snapshot on the way; tests only refresh successfully.", "anchors": ["python/src/space/ray/runners.py:RayMaterializedViewRunner.refresh", "python/src/space/core/storage.py:Transaction.commit"]}
{"id": "C56", "title": "A filter on keys reads only files that may match", "statement": "For a filter combining comparisons of fields and literals by and/or, data_files(filter_) returns exactly the files of the version whose recorded ranges of primary keys do not rule the filter out: a comparison of keys and literals is ruled out when no values within the ranges satisfy it, 'and' when either side is, 'or' when both are.", "quantifier": "every storage state and every such filter", "why_tests_cant": "Skipping too few files is invisible in results; skipping too many shows only for some data; the space of filters and ranges is unbounded.", "anchors": ["python/src/space/core/manifests/falsifiable_filters.py:build_manifest_filter", "python/src/space/core/storage.py:Storage.data_files", "python/src/space/core/manifests/index.py:read_index_manifests"]}
{"id": "C57", "title": "Distributed insert and upsert behave like the local ones", "statement": "insert() of the Ray runner, with any number of actors, either succeeds, in which case the input keys are unique and none of them was in the dataset, and afterwards the dataset holds exactly the old rows followed by the input rows (each once, in some order); or it fails because a key is there already or twice in the input, and then nothing changes. upsert() of the Ray runner leaves the rows whose key is not in the input, followed by the input rows, each once.", "quantifier": "all reachable datasets, file layouts, numbers of actors, input tables and file options", "why_tests_cant": "The duplicate check runs per file and the write is split over actors, so the result depends on how stored rows and input rows are spread over files and actors; tests use a few rows with one or two actors.", "anchors": ["python/src/space/ray/ops/insert.py:34-67", "python/src/space/ray/ops/append.py:31-93", "python/src/space/core/ops/insert.py:45-135", "python/src/space/ray/runners.py"]}
{"id": "C58", "title": "Distributed calls that do not succeed change nothing", "statement": "If append(), append_from(), insert(), upsert() or delete() of the Ray runner raises, fails or is skipped, then the stored metadata is what it was, and every full read through any handle at any version gives what it gave before. A distributed append of rows that fit the schema does succeed, reporting the number of input rows, and is skipped when there are no rows.", "quantifier": "all reachable states, numbers of actors, inputs, and points of failure (including after some actors have written files)", "why_tests_cant": "Failure of one actor leaves files of the others behind; that no read ever sees them depends on every read path and is not observable in single runs.", "anchors": ["python/src/space/ray/runners.py", "python/src/space/ray/ops/append.py:31-93", "python/src/space/ray/ops/delete.py:43-70", "python/src/space/ray/ops/insert.py:34-67", "python/src/space/core/transaction.py"]}
{"id": "C59", "title": "Joins of views return the inner join of the views' rows", "statement": "Joining two views (map_batches and filter over datasets) on a column that is a primary key of both returns exactly the inner join, on that column, of the rows which the two views would return when read: no row is lost to the key ranges the join derives from file statistics or to its partitioning, and none is made up.", "quantifier": "all reachable sources, map and filter functions, file layouts, key ranges, join input fields, and choices of sources (two datasets, one dataset, one dataset opened twice)", "why_tests_cant": "The key ranges come from the statistics of the datasets below the views and are applied below the functions; whether rows get lost depends on the functions, on the field IDs of the views and on the files. Tests join small views with unchanged keys.", "anchors": ["python/src/space/ray/ops/join.py", "python/src/space/core/transform/join.py", "python/src/space/ray/runners.py:60-86", "python/src/space/core/transform/udfs.py"]}
{"id": "C60", "title": "Options of a join read are obeyed or rejected", "statement": "An option given to read() of a join (filter, fields, version, reference_read) is either obeyed or makes the call raise UserInputError; the call never returns rows as if the option had not been given.", "quantifier": "all reachable sources, views, join inputs, and combinations of options", "why_tests_cant": "Tests check the error of one option at a time; that no combination of options and sources is silently dropped is a statement about all of them.", "anchors": ["python/src/space/core/transform/join.py:108-129", "python/src/space/ray/runners.py:60-86", "python/src/space/ray/runners.py:120-135"]}
{"id": "C61", "title": "Replaying the diff of a view reproduces the view", "statement": "diff() of a view of maps and filters over a dataset reports, snapshot by snapshot and in order, the keys deleted from the source and the view's rows of the rows added to it, whatever the parallelism and batch size; it raises exactly when the diff of the source raises. Applying the reported deletions and additions to the view's rows of the start version gives the view's rows of the end version.", "quantifier": "all reachable sources, pairs of versions, views, row-wise functions, parallelism, file splitting and batch sizes", "why_tests_cant": "The result depends on the history between the versions, on how files are spread over read streams, and on what the functions do to keys; tests diff one or two commits through fixed functions.", "anchors": ["python/src/space/ray/runners.py:88-127", "python/src/space/ray/ops/change_data.py", "python/src/space/core/transform/udfs.py:102-104"]}
{"id": "C62", "title": "Versions of a materialized view mean the same to read and diff", "statement": "For a materialized view mv and versions a and b of it, applying mv.ray().diff(a, b) (rows with deleted keys go, added rows come) to the rows of mv.ray().read(version=a) gives the rows of mv.ray().read(version=b); a read of a version returns the rows stored in that snapshot of the materialized view.", "quantifier": "All materialized views of maps and filters over a dataset, all histories of the source and of refreshes, all versions, by ID or tag, read and diff options, parallelism.", "why_tests_cant": "The versions of the view and of its source agree as long as every source snapshot yields one snapshot of the view; tests refresh in this regular way. Whether the two numberings agree depends on the whole history of both storages.", "anchors": ["python/src/space/ray/runners.py:88-132", "python/src/space/ray/runners.py:135-172", "python/src/space/ray/runners.py:174-236"]}
{"id": "C63", "title": "A join is refused, with a user error, exactly when it cannot be computed", "statement": "View.join() accepts a request exactly when it names one key that is a primary key and a column of both sides, and lists of fields (if given) that name at least one other column and only columns of their side; every other request raises UserInputError. The result has the key, then the other columns asked for on the left side, then those on the right. Reading an accepted join of sides without files returns no rows.", "quantifier": "all pairs of schemas of datasets and views, all key lists, field lists and reference options; for reads all reachable datasets and views of maps and filters over them", "why_tests_cant": "The checks are spread over View.join, JoinTransform and the Ray join and look at different schemas; tests ask for a handful of well-formed joins.", "anchors": ["python/src/space/core/views.py:183-224", "python/src/space/core/transform/join.py:64-105", "python/src/space/ray/ops/join.py:148-176"]}
{"id": "C64", "title": "Joins by reference return the record addresses their sides read", "statement": "A join in which a side is read with reference_read returns the rows of the inner join of what both sides read, and each record field of a returned row holds the very address (file and row id) that reading its side alone gives for that row. The sides may be datasets, or maps and filters over them. Whatever the columns are called, such a join returns whenever Arrow can join the columns.", "quantifier": "all pairs of reachable datasets and views of them, all accepted joins of them, all combinations of reference reads, partition functions, file layouts and block divisions", "why_tests_cant": "Arrow cannot join structs, so addresses are split into columns named after the record field and put together after the join; whether parts end up in the right row and field, and names never clash, depends on all columns of both sides.", "anchors": ["python/src/space/ray/ops/join.py:111-137", "python/src/space/ray/ops/join.py:187-211", "python/src/space/core/schema/utils.py:54-61", "python/src/space/core/transform/udfs.py:121-131"]}
{"id": "C65", "title": "index_files lists the files that hold a version", "statement": "Dataset.index_files(version) returns paths of existing index files whose tables, one after the other, are exactly the rows a read of that version by reference returns; it raises exactly when the read raises.", "quantifier": "all reachable datasets, handles, versions (none, numbers, tags, branches) and file layouts", "why_tests_cant": "Which files belong to a version depends on the whole history of appends, deletes, tags and branches, and on which handle made them.", "anchors": ["python/src/space/core/datasets.py:99-105", "python/src/space/core/storage.py:data_files/version_to_snapshot_id"]}
