{
 "claims": [
  {
   "property": "C01",
   "status": "proved",
   "theorems": [
    "C01_append_adds_input"
   ],
   "note": "For every reachable state, handle and successful append: the rows read afterwards are the rows read before followed by the input rows."
  },
  {
   "property": "C02",
   "status": "proved",
   "theorems": [
    "C02_addresses_resolve",
    "C02_rows_supplied"
   ],
   "note": "Addresses resolve for ever to the rows read; every row read was supplied by some operation. Both for all histories."
  },
  {
   "property": "C03",
   "status": "proved",
   "theorems": [
    "C03_append_accounts"
   ],
   "note": "For all batches, limits and reachable states."
  },
  {
   "property": "C04",
   "status": "partial",
   "theorems": [
    "C04_filtered_read_partial",
    "C04_refuted_not",
    "C04_refuted_nan",
    "C04_refuted_null",
    "C04_refuted_nested",
    "C04_refuted_two_keys"
   ],
   "note": "Proved for filters without not over mixed comparisons, and non-null, non-NaN data as named in the hypotheses; refuted in general by witnesses (negation, NaN, null literal, a struct before the key, comparing two keys by !=)."
  },
  {
   "property": "C05",
   "status": "partial",
   "theorems": [
    "C05_stats_bound_keys_partial",
    "C05_refuted"
   ],
   "note": "Proved for primary keys before any nested or record field (plain_before), for every row group division. C05_refuted: with a struct before the key the statistics of another leaf column are recorded."
  },
  {
   "property": "C06",
   "status": "partial",
   "theorems": [
    "C06_delete_removes_matching_partial",
    "C06_delete_only_removes",
    "C06_delete_exact",
    "C06_outcomes_partial",
    "C06_refuted_loss"
   ],
   "note": "Exactly what remains, for any filter over index columns and any rows (C06_delete_exact); every outcome with its effect when files can be written; refuted in general: rows of files sharing a manifest with rewritten files vanish, and so do rows with null operands (C07)."
  },
  {
   "property": "C07",
   "status": "partial",
   "theorems": [
    "C07_refuted"
   ],
   "note": "The claim is false of the code: C07_refuted gives the witness. Which rows remain is given exactly by C06_delete_exact."
  },
  {
   "property": "C08",
   "status": "partial",
   "theorems": [
    "C08_insert_outcomes_partial",
    "C08_refuted"
   ],
   "note": "Both outcomes and their effects, in every reachable state, for keys before nested or record fields, non-null non-NaN keys and well-typed rows. C08_refuted: a schema with a struct before the key accepts an insert of a present key."
  },
  {
   "property": "C09",
   "status": "partial",
   "theorems": [
    "C09_upsert_replaces_partial",
    "C09_refuted_loss",
    "C09_upsert_outcomes_partial"
   ],
   "note": "Proved for non-null, non-NaN keys and buildable filters; which upserts succeed, what they report and what they leave is described exactly; refuted in general: an upsert can lose rows."
  },
  {
   "property": "C10",
   "status": "partial",
   "theorems": [
    "C10_unique_keys_partial",
    "C10_refuted",
    "C10_refuted_stale",
    "C10_refuted_removed",
    "C10_refuted_switched"
   ],
   "note": "For every history of concurrent handles with transactions and crashes modifying data by insert, upsert and delete, local or distributed, with proper keys (distributed deletes on separable layouts); while a transaction is open no branch removal, no edits through stale handles, and its handle stays on its branch. All three are needed: C10_refuted_stale, C10_refuted_removed, C10_refuted_switched. C10_refuted: a schema with a struct before the key."
  },
  {
   "property": "C11",
   "status": "partial",
   "theorems": [
    "C11_refuted",
    "C11_success_partial",
    "C11_success_new_partial",
    "C11_no_success_no_change"
   ],
   "note": "No-success-no-change is proved in full. Success: all of the claim, except that after a branch was removed the new snapshot may replace an old one with the same ID (C11_refuted); without branch removal it is new (C11_success_new_partial)."
  },
  {
   "property": "C12",
   "status": "partial",
   "theorems": [
    "C12_refuted",
    "C12_immutable_partial",
    "C12_main_immutable_partial"
   ],
   "note": "Proved for histories whose tag and branch edits go through up-to-date handles and that remove no branch reaching the snapshot; refuted in general (a snapshot id can be reused)."
  },
  {
   "property": "C13",
   "status": "partial",
   "theorems": [
    "C13_tags_stay_partial",
    "C13_stale_refuted"
   ],
   "note": "Proved for all histories whose tag and branch edits go through up-to-date handles; otherwise refuted: an edit through a stale handle drops a tag."
  },
  {
   "property": "C14",
   "status": "proved",
   "theorems": [
    "C14_branches_isolated"
   ],
   "note": "Other branches and tags read the same through every handle."
  },
  {
   "property": "C15",
   "status": "proved",
   "theorems": [
    "C15_ids_decrease",
    "C15_new_id_is_largest"
   ],
   "note": "Parent chains are strictly decreasing to 0; new ids exceed all heads."
  },
  {
   "property": "C16",
   "status": "proved",
   "theorems": [
    "C16_later_committer_fails",
    "C16_commits_are_serial"
   ],
   "note": "The later committer fails and changes nothing; a successful commit replaces the head it started from and acts on the rows present at commit. Calls in between are arbitrary; the branch is not removed meanwhile and edits go through up-to-date handles."
  },
  {
   "property": "C17",
   "status": "partial",
   "theorems": [
    "C17_refuted",
    "C17_write_restores",
    "C17_nothing_lost_partial"
   ],
   "note": "The claim is false of the code: C17_refuted interleaves check and write of two commits; both succeed and one row is lost. C17_write_restores: exactly what a write after a check leaves, whatever happened in between. C17_nothing_lost_partial: nothing is lost when nobody changes the metadata in between. With the commit as one step see C16."
  },
  {
   "property": "C18",
   "status": "proved",
   "theorems": [
    "C18_other_branches_do_not_matter"
   ],
   "note": "Commits on other branches never make a transaction fail, and its commit leaves other branches' heads and rows alone."
  },
  {
   "property": "C19",
   "status": "partial",
   "theorems": [
    "C19_refuted",
    "C19_edits_keep_partial"
   ],
   "note": "Refuted: an edit through a stale handle writes old metadata back. Proved for up-to-date handles."
  },
  {
   "property": "C20",
   "status": "proved",
   "theorems": [
    "C20_crash_atomic",
    "C20_load_succeeds"
   ],
   "note": "Any prefix of the file-system events of any call leaves the old or the new state; loading succeeds."
  },
  {
   "property": "C21",
   "status": "proved",
   "theorems": [
    "C21_create_is_exclusive",
    "C21_load_finds_created"
   ],
   "note": "Exclusive create and create-then-load."
  },
  {
   "property": "C22",
   "status": "partial",
   "theorems": [
    "C22_handles_agree",
    "C22_load_is_latest",
    "C22_reload_synchronises",
    "C22_refuted",
    "C22_reload_reports_partial"
   ],
   "note": "reads through any handle agree, load gives the latest state, reload synchronises; refuted: reload() also returns True after the handle's own commit; exact report proved when the handle did nothing since its last reload"
  },
  {
   "property": "C23",
   "status": "proved",
   "theorems": [
    "C23_diff_is_the_path",
    "C23_input_error_iff_no_path",
    "C23_unknown_versions"
   ],
   "note": "diff returns exactly the changes of the snapshots on the parent path, oldest first; input error iff no path; in all reachable states"
  },
  {
   "property": "C24",
   "status": "partial",
   "theorems": [
    "C24_refuted_lossy",
    "C24_refuted_duplicates",
    "C24_refuted_distributed",
    "C24_refuted_removed",
    "C24_replay_partial",
    "C24_replay_unique_partial",
    "C24_replay_keyed_partial"
   ],
   "note": "false in general (lossy deletes, duplicate keys, distributed deletes changing two files of a manifest, snapshot IDs of a removed branch given out again: refuted by witnesses); proved for all histories of local and distributed calls in which no branch is removed, also with edits through stale handles and branch switches while transactions are open, between versions with unique keys and exact row counts; with unique keys alone when no operation loses rows; and for insert/upsert/delete histories that lose no rows; missing: distributed deletes on layouts that are not separable"
  },
  {
   "property": "C25",
   "status": "partial",
   "theorems": [
    "C25_refuted",
    "C25_diff_available_partial",
    "C25_diff_with_logs_partial"
   ],
   "note": "false for append_parquet (refuted); proved for every history in which append_parquet is not used, or whenever the snapshots between have change logs"
  },
  {
   "property": "C26",
   "status": "proved",
   "theorems": [
    "C26_batch_size_irrelevant",
    "C26_batches_bounded",
    "C26_projection_commutes",
    "C26_references_resolve"
   ],
   "note": "Batch size, projection and reference reads."
  },
  {
   "property": "C27",
   "status": "partial",
   "theorems": [
    "C27_read_resolves",
    "C27_diff_resolves",
    "C27_read_not_found",
    "C27_refuted_diff",
    "C27_versions_listed",
    "C27_snapshot_ids"
   ],
   "note": "read and versions resolve names exactly; snapshot_ids has each snapshot once; refuted for diff: an absent start id raises UserInputError instead of VersionNotFoundError"
  },
  {
   "property": "C28",
   "status": "partial",
   "theorems": [
    "C28_refuted",
    "C28_refuted_distributed",
    "C28_count_at_least_partial",
    "C28_count_exact_partial"
   ],
   "note": "false when a delete loses rows, and when a distributed delete changes two files of a manifest (refuted); proved for every history of local and distributed calls: never too small when distributed deletes are separable, and exact when deletes and upserts lose no rows"
  },
  {
   "property": "C29",
   "status": "partial",
   "theorems": [
    "C29_refuted",
    "C29_bytes_exact_partial",
    "C29_delete_excess",
    "C29_delete_exact_partial"
   ],
   "note": "false after deletes (refuted); proved for every history of local and distributed appends and inserts, append_parquet and append_array_record; the exact error a delete makes is C29_delete_excess, and deletes whose candidate files are all rewritten with their whole manifests keep the statistics exact"
  },
  {
   "property": "C30",
   "status": "proved",
   "theorems": [
    "C30_shards",
    "C30_sources",
    "C30_append",
    "C30_append_from",
    "C30_skipped"
   ],
   "note": "Shards and sources are partitioned over the workers; a successful Ray append adds exactly the supplied rows and reports their number. Ray actors run one after the other in the model; parallelism at least 1."
  },
  {
   "property": "C31",
   "status": "proved",
   "theorems": [
    "C31_ranges",
    "C31_same_rows",
    "C31_block_size"
   ],
   "note": "Ranges of the tasks of a file cover its rows in order; the Ray read equals the local read for every filter, fields, version, batch size; block sizes bounded by batch_size."
  },
  {
   "property": "C32",
   "status": "partial",
   "theorems": [
    "C32_refuted",
    "C32_same_rows_partial",
    "C32_distributed_exact",
    "C32_right_iff_separable",
    "C32_outcomes_partial"
   ],
   "note": "Full claim refuted (C32_refuted: touched files that share a manifest). Exactly what a distributed delete leaves is proved for every layout (C32_distributed_exact), and that it is what the local delete leaves exactly for layouts in which the deleted rows of a manifest are all of its rows or are all in one file that keeps a row (C32_same_rows_partial, C32_right_iff_separable). C32_outcomes_partial gives the outcome in every case for schemas and keys that can be written."
  },
  {
   "property": "C33",
   "status": "proved",
   "theorems": [
    "C33_partition",
    "C33_same_changes"
   ],
   "note": "Streams partition the changed files; the Ray diff has the same changed rows in the same order (or the same error) as the local diff."
  },
  {
   "property": "C34",
   "status": "partial",
   "theorems": [
    "C34_refresh_partial",
    "C34_same_id_partial",
    "C34_refresh_again",
    "C34_source_untouched",
    "C34_refuted_skipped",
    "C34_refuted_stale"
   ],
   "note": "Proved: after a successful refresh the materialized view holds the view of the version refreshed to, when it held the view of the version numbered like its own snapshot ID and row counts are exact on the way, for any history of the source in which no branch is removed; snapshot IDs advance in step when every transaction succeeds; refreshing to a version already held changes nothing (but raises UserInputError); the source is never written. Refuted in general: a skipped transaction lets the IDs drift apart and the next refresh adds rows twice; so does a refresh through a stale handle."
  },
  {
   "property": "C35",
   "status": "partial",
   "theorems": [
    "C35_partial",
    "C35_returns_partial",
    "C35_accepted",
    "C35_empty_refuted",
    "C35_null_refuted"
   ],
   "note": "Joins of two datasets that return give the inner join of the unrestricted reads, for any partition function covering the common keys once; they return when both sides' columns can be joined; what is accepted is characterised. Missing: views as sides (see C59), NaN keys, keys behind nested columns. Refuted: a range without rows on one side raises under Ray 2.9.1, and a manifest with only null keys raises. Both sides ask for columns they have (own_columns; requests for which this fails are described in C63)."
  },
  {
   "property": "C36",
   "status": "partial",
   "theorems": [
    "C36_logical_schema_partial",
    "C36_physical_schemas_agree_partial",
    "C36_written_schema_partial",
    "C36_refuted_nested",
    "C36_refuted_file"
   ],
   "note": "Top-level names, ids and types proved; the physical schema operations use is the one stored; nested ids, nullability and item names are lost (refuted), and File columns give disagreeing physical schemas (refuted)."
  },
  {
   "property": "C37",
   "status": "proved",
   "theorems": [
    "C37_ids_are_numbered",
    "C37_numbering_keeps_fields",
    "C37_ids_are_stable"
   ],
   "note": "Numbering, preservation and stability over all histories."
  },
  {
   "property": "C38",
   "status": "proved",
   "theorems": [
    "C38_cover",
    "C38_same_when_distinct",
    "C38_takes",
    "C38_order"
   ],
   "note": "Covers each given address exactly once; the order is kept exactly for addresses sorted file by file."
  },
  {
   "property": "C39",
   "status": "partial",
   "theorems": [
    "C39_arrow",
    "C39_batch",
    "C39_refuted",
    "C39_array_record_partial",
    "C39_array_record_same_partial"
   ],
   "note": "Proved for the table-backed source and for batches. Refuted for the default single-field source over record files, which returns records in file order; there the claim holds when rows come in file order, and up to order when no record belongs to two rows."
  },
  {
   "property": "C40",
   "status": "partial",
   "theorems": [
    "C40_round_trip",
    "C40_same_place",
    "C40_external_absolute_partial",
    "C40_external_relative",
    "C40_external_relative_iff",
    "C40_refuted",
    "C40_created_apart",
    "C40_created_not_entry"
   ],
   "note": "Round trip and same-place theorems hold for all strings; external files given by absolute paths are opened where named. Refuted for relative external paths (C40_refuted, C40_external_relative_iff): they are resolved below the storage location."
  },
  {
   "property": "C41",
   "status": "proved",
   "theorems": [
    "C41_parquet_rows",
    "C41_array_record_rows",
    "C41_array_record_addresses",
    "C41_parquet_no_copies",
    "C41_array_record_no_copies"
   ],
   "note": "Rows added, addresses of the added rows, and absence of copies, for every reachable state, file list and index function. External Parquet files must have the columns and types of the storage (external_ok)."
  },
  {
   "property": "C42",
   "status": "proved",
   "theorems": [
    "C42_round_trip",
    "C42_serialized_columns",
    "C42_deserialized_columns",
    "C42_create"
   ],
   "note": "Batches whose values round-trip through the field serializers round-trip as a whole; other columns pass through unchanged."
  },
  {
   "property": "C43",
   "status": "partial",
   "theorems": [
    "C43_rebuilt_partial",
    "C43_rebuilt_on_main",
    "C43_materializes",
    "C43_branch_refuted",
    "C43_directory_refuted"
   ],
   "note": "C43_rebuilt_partial: a view of maps and filters over a dataset on main is rebuilt exactly, whatever happens to the storages later and from whichever directory. C43_rebuilt_on_main: for a dataset opened on any branch the rebuilt view is the same composition over main. C43_materializes: every such view has a plan and the storage is created with its schema, keys and record fields. C43_branch_refuted and C43_directory_refuted: the full claim is false, since the plan does not record the branch and keeps a relative source location."
  },
  {
   "property": "C44",
   "status": "partial",
   "theorems": [
    "C44_input_error_iff_invalid_partial",
    "C44_refuted_ambiguous"
   ],
   "note": "Proved when key and record field names are unambiguous; otherwise refuted (KeyError)."
  },
  {
   "property": "C45",
   "status": "partial",
   "theorems": [
    "C45_append_succeeds_partial",
    "C45_key_filters_work_partial",
    "C45_refuted_record_first",
    "C45_refuted_struct_first",
    "C45_refuted_null_keys"
   ],
   "note": "Appends succeed and key filters work for schemas whose keys precede nested and record fields and whose record fields come last. Refuted for record field first, struct first, and row groups of null keys."
  },
  {
   "property": "C46",
   "status": "proved",
   "theorems": [
    "C46_files_immutable"
   ],
   "note": "All files but the entry point keep their content over every history, crashes included."
  },
  {
   "property": "C47",
   "status": "partial",
   "theorems": [
    "C47_refuted",
    "C47_main_partial",
    "C47_points_at_partial"
   ],
   "note": "refuted: references start at main's head, not at the head of the current branch; exact starting point proved"
  },
  {
   "property": "C48",
   "status": "partial",
   "theorems": [
    "C48_refuted",
    "C48_outcome_partial",
    "C48_skipped_partial"
   ],
   "note": "Refuted as stated: deleting nothing returns FAILED instead of SKIPPED when the statistics leave no candidate file or a candidate file is empty. Proved: the exact outcome, and that the storage never changes."
  },
  {
   "property": "C49",
   "status": "partial",
   "theorems": [
    "C49_lists_created_partial",
    "C49_created_listed",
    "C49_listed_once",
    "C49_refuted",
    "C49_load_returns_it",
    "C49_load_missing",
    "C49_create_existing"
   ],
   "note": "Proved for names that are single directory names; a name with a slash is created and loadable but never listed (C49_refuted)."
  },
  {
   "property": "C50",
   "status": "proved",
   "theorems": [
    "C50_merge_concatenates",
    "C50_merged_commit"
   ],
   "note": "Merging concatenates; committing the merged patch equals committing the parts in turn."
  },
  {
   "property": "C51",
   "status": "proved",
   "theorems": [
    "C51_references"
   ],
   "note": "Every call on references through an up-to-date handle; stale handles are C19."
  },
  {
   "property": "C52",
   "status": "proved",
   "theorems": [
    "C52_view_of_rows",
    "C52_errors"
   ],
   "note": "User functions act row by row and are total; transforms ask for columns their input has."
  },
  {
   "property": "C53",
   "status": "partial",
   "theorems": [
    "C53_filter_partial",
    "C53_refuted"
   ],
   "note": "Refuted: the filter is applied to the source rows. Partial: views on which the filter says the same of a source row and the rows made of it."
  },
  {
   "property": "C54",
   "status": "partial",
   "theorems": [
    "C54_columns_partial",
    "C54_refuted"
   ],
   "note": "Refuted for filters with input_fields. Partial: filters that read all columns."
  },
  {
   "property": "C55",
   "status": "partial",
   "theorems": [
    "C55_stops_at_version_partial",
    "C55_jobs_count"
   ],
   "note": "Versions on the way, for any result; hypotheses as for C34 (exact row counts, unique keys)."
  },
  {
   "property": "C56",
   "status": "partial",
   "theorems": [
    "C56_files_left_partial"
   ],
   "note": "Exact for and/or of comparisons with non-NaN literals, when every file records ranges for the keys; not for negation and key != key (C04 has the counterexamples)."
  },
  {
   "property": "C57",
   "status": "partial",
   "theorems": [
    "C57_insert_outcomes_partial",
    "C57_upsert_replaces_partial",
    "C57_upsert_outcomes_partial"
   ],
   "note": "Both outcomes of insert and of upsert are proved exactly, under the conditions C08 and C09 have for the local runner (keys before nested and record fields, records last, typed rows, no NaN key). Upsert: rows lost are described exactly, as for C09 (the defect of local delete is shared)."
  },
  {
   "property": "C58",
   "status": "partial",
   "theorems": [
    "C58_append_unchanged",
    "C58_append_from_unchanged",
    "C58_insert_unchanged",
    "C58_delete_unchanged",
    "C58_append_succeeds_partial"
   ],
   "note": "The five statements about calls that do not succeed are full. The statement that appends of fitting rows succeed is partial: keys before nested and record fields, records last, no NaN key (see C45)."
  },
  {
   "property": "C59",
   "status": "partial",
   "theorems": [
    "C59_views_partial",
    "C59_returns_partial",
    "C59_refuted_key",
    "C59_refuted_order",
    "C59_refuted_stale"
   ],
   "note": "C59_views_partial: a join of views that returns gives exactly the inner join of the views' rows, for views that keep the join key and its field ID; C59_returns_partial: when it returns. The full claim is false: C59_refuted_key (views that change the key), C59_refuted_order (views with columns in another order), C59_refuted_stale (one dataset opened twice). Missing: NaN keys, keys behind nested columns, and the flattening of addresses (C64). Both sides ask for columns they have (own_columns; requests for which this fails are described in C63)."
  },
  {
   "property": "C60",
   "status": "partial",
   "theorems": [
    "C60_raises_partial",
    "C60_error_partial",
    "C60_refuted_filter",
    "C60_refuted_version"
   ],
   "note": "C60_raises_partial, C60_error_partial: fields, reference_read, and a version with two sources raise. The full claim is false: C60_refuted_filter (a filter is ignored), C60_refuted_version (a version of a dataset joined with itself is ignored)."
  },
  {
   "property": "C61",
   "status": "partial",
   "theorems": [
    "C61_rows",
    "C61_error",
    "C61_replay_partial",
    "C61_replay_keyed_partial",
    "C61_refuted_key"
   ],
   "note": "C61_rows, C61_error: what the diff of a view reports, exactly. C61_replay_partial and C61_replay_keyed_partial: replaying it, for views that keep the primary keys, under the conditions of C24. The full claim is false: C61_refuted_key (a view that changes the key), and by C24's witnesses for views that keep it."
  },
  {
   "property": "C62",
   "status": "partial",
   "theorems": [
    "C62_read",
    "C62_diff_partial",
    "C62_in_step_partial",
    "C62_refuted_skipped",
    "C62_refuted_tag"
   ],
   "note": "C62_read: reads of a materialized view, in full. C62_diff_partial: replaying its diff, between versions at which its snapshot k holds the view of the source's snapshot k; C62_in_step_partial: refreshes that succeed for every snapshot keep it so. The full claim is false: reads take versions of the materialized view, diffs those of the source (C62_refuted_skipped, C62_refuted_tag)."
  },
  {
   "property": "C63",
   "status": "partial",
   "theorems": [
    "C63_error",
    "C63_accepted",
    "C63_refused_partial",
    "C63_exact",
    "C63_own_partial",
    "C63_no_key",
    "C63_empty",
    "C63_refuted_column",
    "C63_refuted_repeated"
   ],
   "note": "C63_error, C63_accepted: only UserInputErrors, and every valid request is accepted with the right columns. C63_refused_partial: only valid requests are accepted, without reference reads and repeated names and when the right side has the key. C63_exact: exactly what is accepted, odd requests included. C63_own_partial: sides read columns they have, unless one reads addresses and the other has record fields. The full claim is false: a record field of the other side is accepted as a column when addresses are read (C63_refuted_column), a list repeating the key counts as another column (C63_refuted_repeated), a right view without the key is accepted and raises when read (C63_no_key)."
  },
  {
   "property": "C64",
   "status": "partial",
   "theorems": [
    "C64_rows_partial",
    "C64_returns_partial",
    "C64_refuted_name",
    "C64_refuted_twice",
    "C64_views_partial",
    "C64_views_return_partial",
    "C64_filters",
    "C64_refuted_undeclared"
   ],
   "note": "C64_rows_partial, C64_returns_partial: addresses come back in the rows and fields they belong to, and the join returns as C35 says, when column names are distinct and no column is called like a part of an address. C64_views_partial, C64_views_return_partial: the same for views as sides (as C59) that declare the record fields in which they hand on addresses; C64_filters: datasets and filters always do. The full claim is false: C64_refuted_name (a column called r._FILE), C64_refuted_twice (a record field listed twice), C64_refuted_undeclared (a map that does not declare its record fields). Other limits as for C35 and C59."
  },
  {
   "property": "C65",
   "status": "partial",
   "theorems": [
    "C65_files_partial",
    "C65_error_partial",
    "C65_refuted_stale"
   ],
   "note": "C65_files_partial, C65_error_partial: for handles whose metadata is the stored one. The full claim is false: index_files does not reload, so a handle opened before another writer's commit lists old files and does not know new versions (C65_refuted_stale)."
  }
 ]
}