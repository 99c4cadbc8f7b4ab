{"claims": [
 {"property": "C01", "status": "proved", "theorems": ["C01_slot_lookup_exact", "C01_slot_single_owner"], "note": "for every sorting function that returns an ordered permutation"},
 {"property": "C02", "status": "proved", "theorems": ["C02_table_accepted_iff", "C02_edges_valid_iff", "C02_range_text_iff"], "note": "iff characterisation; slots have no upper bound check in the code (a table may name slots above 16384)"},
 {"property": "C03", "status": "proved", "theorems": ["C03_ranges_roundtrip"], "note": ""},
 {"property": "C04", "status": "proved", "theorems": ["C04_remove_exact", "C04_remove_wellformed"], "note": ""},
 {"property": "C05", "status": "proved", "theorems": ["C05_combine_union", "C05_combine_owner_refuted"], "note": "slot sets unite exactly; the owner of merged neighbouring ranges is not kept (finding, C05_combine_owner_refuted)"},
 {"property": "C06", "status": "partial", "theorems": ["C06_range_query_exact", "C06_valid_range_sound", "C06_valid_range_complete_partial", "C06_valid_range_complete_refuted"], "note": "a range spanning two adjacent ranges of one owner is reported as not owned (finding)"},
 {"property": "C07", "status": "partial", "theorems": ["C07_conserved_partial", "C07_single_owner", "C07_cancel_refuted", "C07_faults_refuted", "C07_stale_refuted", "C07_checked"], "note": "Proved for all accepted tables, slot sets and faults before the sender gives up its slots, when both servers see the current table. Refuted: the deferred cancel races with the end of the stream; the prepare timer, a crash of the sender or a failing write of the receiver leave slots without owner; the table cached for five minutes allows moving slots twice, giving two owners and a table nobody accepts."},
 {"property": "C08", "status": "partial", "theorems": ["C08_one_at_a_time", "C08_second_refused", "C08_table_checked", "C08_table_changes", "C08_table_refused", "C08_sequential_partial", "C08_returns_partial", "C08_table_refuted", "C08_stuck_refuted", "C08_double_finish_refuted", "C08_timer_refuted"], "note": "One migration at a time is proved for every schedule. Table changes and return to normal are proved for calls that do not overlap. Refuted for overlapping calls: Save checks then writes; an earlier finish clears the peer of the next migration, which then never ends; the second finish of AutoMigrate, or a late prepare timer, ends the next migration."},
 {"property": "C09", "status": "partial", "theorems": ["C09_size_text_iff", "C09_size_exact_partial", "C09_size_exact_refuted"], "note": "accepted texts and results characterised exactly; products above 2^64 wrap around instead of being rejected (finding: 16777216TB = 0)"},
 {"property": "C10", "status": "partial", "theorems": ["C10_wildcard_exact", "C10_simple_exact", "C10_simple_doc_refuted"], "note": "full match exact; the simple variant also accepts a text that ends before an inner '?' (finding)"},
 {"property": "C11", "status": "proved", "theorems": ["C11_array_roundtrip", "C11_array_reject", "C11_decode_malformed_refuted"], "note": "records' own codec is a parameter; decoder panics on truncated input (finding)"},
 {"property": "C12", "status": "partial", "theorems": ["C12_page_exact", "C12_pages_cover", "C12_every_page_number_refuted"], "note": "for page >= 1 and size >= 1; negative page numbers are not refused (finding)"},
 {"property": "C13", "status": "partial", "theorems": ["C13_limited_read_exact", "C13_padded_write", "C13_write_read_identity", "C13_any_buffer_refuted"], "note": "for page-multiple buffers (those of the callers); other buffers may panic (finding)"},
 {"property": "C14", "status": "partial", "theorems": ["C14_numbers_grow_partial", "C14_reuse_refuted"], "note": "Proved over all histories (log entries, lookups, location changes; migrated numbers in 1..B, B + length < 2^63) between removals of the object's metadata or of all its versions; refuted when all versions are removed while the metadata stays."},
 {"property": "C15", "status": "proved", "theorems": ["C15_store_is_map"], "note": "Simulation with a plain map; whether a unique id counts as taken is left to C16."},
 {"property": "C16", "status": "partial", "theorems": ["C16_stored_id_refused_partial", "C16_fresh_id_accepted", "C16_free_after_remove_refuted", "C16_migrated_refuted"], "note": "Stored ids are refused in migration-free histories and fresh ids accepted in all; the id of a removed version stays taken and the id of a migrated version is not recognised (both refuted by witnesses)."},
 {"property": "C17", "status": "partial", "theorems": ["C17_find_complete", "C17_find_stored", "C17_find_exact_partial", "C17_find_exact_refuted", "C17_update_locate_refuted"], "note": "Completeness for all histories; exactness for histories that remove no object; refuted after an object is removed and created again."},
 {"property": "C18", "status": "partial", "theorems": ["C18_latest_partial", "C18_text_order", "C18_latest_refuted"], "note": "First/last follow the byte order of decimal texts (all histories); equal to smallest/largest when all numbers have the same digit count; refuted with ten versions."},
 {"property": "C19", "status": "proved", "theorems": ["C19_stale_version_refused", "C19_stale_metadata_refused", "C19_stale_bucket_refused", "C19_version_identity", "C19_metadata_identity"], "note": ""},
 {"property": "C20", "status": "partial", "theorems": ["C20_batches_agree", "C20_single_vs_batch_partial", "C20_single_vs_batch_refuted", "C20_absent_field_refuted"], "note": "All partitions into batches agree for entries as written by the service, nil, foreign and truncated ones; Apply and ApplyBatch differ on migrated versions without unique id, and an entry lacking a field takes it from its predecessor."},
 {"property": "C21", "status": "partial", "theorems": ["C21_replay_partial", "C21_replay_recreated_refuted", "C21_replay_failed_refuted", "C21_replay_removal_refuted"], "note": "Replays are absorbed for logs without object removals, migrations and missed targets; refuted otherwise."},
 {"property": "C22", "status": "proved", "theorems": ["C22_read_back", "C22_read_complete"], "note": "for any erasure code that satisfies the MDS law; losses of up to the parity number of shards"},
 {"property": "C23", "status": "partial", "theorems": ["C23_shards_intact_partial", "C23_end_to_end_partial", "C23_config_partial", "C23_three_shards_refuted", "C23_ten_bytes_refuted"], "note": "stored shards equal the sent shards when the block per shard is a multiple of 4096; refuted for other block sizes, which the configuration code produces"},
 {"property": "C24", "status": "partial", "theorems": ["C24_upload_terminates_partial", "C24_small_object_refuted"], "note": "the encoder terminates when its block is not empty; refuted for small objects whose block size is computed as 0"},
 {"property": "C25", "status": "proved", "theorems": ["C25_copies_read_back", "C25_all_lost"], "note": ""},
 {"property": "C26", "status": "partial", "theorems": ["C26_rs_repair_partial", "C26_rs_prefix_refuted", "C26_rs_order_refuted", "C26_copy_repair_partial", "C26_copy_forgets_refuted", "C26_copy_prefix_refuted", "C26_copy_range_refuted"], "note": "a repair after a read to the end restores the shards; refuted for reads that stop early, out-of-order writers and range reads"},
 {"property": "C27", "status": "partial", "theorems": ["C27_store_partial", "C27_store_group_partial", "C27_store_lost_error_refuted", "C27_big_refuted"], "note": "holds for single-request uploads when the wait loses no error and located objects are complete; refuted for resumable uploads, which save the metadata first, and when the wait loses a commit error"},
 {"property": "C28", "status": "partial", "theorems": ["C28_offset_exact_partial", "C28_resume_completes_partial", "C28_object_intact_partial", "C28_partial_answer_refuted", "C28_padding_refuted", "C28_server_failure_refuted", "C28_offset_bounded"], "note": "holds for HEAD with 4096-aligned blocks and no server failures; refuted for the offset of the 206 answer, for other block sizes and after the failure of one data server"},
 {"property": "C29", "status": "proved", "theorems": ["C29_finish_once", "C29_late_write_refused", "C29_stays_committed"], "note": "for all interleavings of concurrent calls; a write that passed its check before the commit can still arrive after it"},
 {"property": "C30", "status": "proved", "theorems": ["C30_even_spread", "C30_own_server"], "note": "All three strategies with arbitrary random numbers / space maps / io maps; distinct server addresses."},
 {"property": "C31", "status": "partial", "theorems": ["C31_keep_one", "C31_keep_newest_partial", "C31_put_exact", "C31_oldest_removed_partial", "C31_keep_newest_refuted", "C31_switch_off_refuted", "C31_concurrent_refuted"], "note": "Proved against the metadata store model: without versioning (or limit one) the newest remains for every number of sequential uploads; with a limit, up to ten uploads, or while all numbers have equal digit counts. Refuted: the eleventh upload with limit 2 removes version 10 instead of 9; switching versioning off; concurrent uploads."},
 {"property": "C32", "status": "proved", "theorems": ["C32_passes_iff", "C32_refusal", "C32_password", "C32_callback"], "note": ""},
 {"property": "C33", "status": "partial", "theorems": ["C33_dedup_partial", "C33_dedup_complete", "C33_dedup_refuted"], "note": "Proved up to SHA-256 collisions for digests of equal length or strategies 0..9; refuted in general: digest and strategy are concatenated without separator."},
 {"property": "C34", "status": "partial", "theorems": ["C34_answer", "C34_sound", "C34_complete_partial", "C34_live", "C34_complete_refuted"], "note": "Every address reported is right; complete when no shard lies on two servers; refuted otherwise: two answers for one shard count for two shards."},
 {"property": "C35", "status": "partial", "theorems": ["C35_whole_read_right_partial", "C35_stored_stays_readable_partial", "C35_range_poisons_cache_refuted", "C35_range_ignored_refuted", "C35_failed_upload_kept_refuted", "C35_read_during_upload_refuted", "C35_parallel_uploads_refuted", "C35_deleted_served_refuted", "C35_late_index_refuted", "C35_head"], "note": "Proved for histories of whole reads without failed, overlapping or concurrent uploads; each dropped condition has a counterexample: a range read fills the whole-object cache, a cached object ignores the range, a failed upload is kept as the object, a read during an upload, two parallel uploads, a deleted object served from the cache, and a late index update."},
 {"property": "C36", "status": "partial", "theorems": ["C36_history_get_partial", "C36_history_last_partial", "C36_puts_only", "C36_encoding_round_trip", "C36_encoding_separator_free", "C36_last_is_latest_put", "C36_last_is_recorded", "C36_last_of_one_never_found", "C36_last_refuted", "C36_remove_only_leaves_empty", "C36_remove_refuted", "C36_remove_latest_leaves_empty", "C36_remove_substring_refuted", "C36_percent_refuted"], "note": "The history theorems carry the conditions the text encoding needs; without them GetLast fails for a single path, Remove leaves an empty path or cuts a path containing the removed one, and a percent sign in a path is lost."},
 {"property": "C37", "status": "partial", "theorems": ["C37_leave_covers_partial", "C37_join_excess_partial", "C37_average_exact", "C37_leave_rounding_refuted", "C37_every_file_sent", "C37_leave_moves_all_partial", "C37_join_overshoot_one_file", "C37_join_sends_more_refuted"], "note": "Proved for capacities summing below 2^53 bytes, where the float64 average is shown exact; beyond, rounding makes the quota too small (counterexample). A joining server's peers overshoot their quota by at most one file."},
 {"property": "C38", "status": "partial", "theorems": ["C38_no_loss_partial", "C38_no_loss_atomic_open_partial", "C38_stream_is_file", "C38_empty_file_never_ends_refuted", "C38_same_size_leftover_refuted", "C38_overlapping_transfers_refuted", "C38_overlapping_creation_refuted", "C38_running_upload_refuted"], "note": "Proved for all failures, crash points and interleavings under conditions each of which has a counterexample when dropped: receiver leftovers are beginnings of the object, no second transfer of the object inside the look-then-open window, no upload still running. An empty file is sent forever."},
 {"property": "C39", "status": "partial", "theorems": ["C39_routed_partial", "C39_unkeyed", "C39_http_read_refuted", "C39_stale_refuted"], "note": "Proved for gRPC and HTTP writes on a server whose table is current (the owner's raft followers also serve). Refuted: HTTP reads are never checked; after a migration both servers decide by their cached table for up to five minutes."},
 {"property": "C40", "status": "partial", "theorems": ["C40_move_partial", "C40_nothing_dropped_partial", "C40_repeat_partial", "C40_stores", "C40_back_refuted", "C40_times_refuted", "C40_counter_refuted", "C40_failed_gone_refuted", "C40_changed_between_refuted", "C40_changed_during_refuted", "C40_stale_cache_refuted"], "note": "Proved for all stores, slot sets and failure patterns when the receiver holds none of the moved objects (except the remains of a failed attempt) and no index entry of their unique ids. Refuted in general: moving an object away and back loses all its versions; times and number counters do not move; after a failure objects already sent are gone from the server that still owns the slot; changes between attempts or during the migration are lost; a stale cached bucket is sent. Without any condition on the receiver: what leaves the sender or is reported as moved is on the receiver, except versions whose unique id another version has."},
 {"property": "C41", "status": "partial", "theorems": ["C41_range_header_roundtrip", "C41_suffix_range_refuted"], "note": "suffix ranges are misread (finding)"},
 {"property": "C42", "status": "partial", "theorems": ["C42_chunk_exact_partial", "C42_chunk_total_refuted"], "note": "start or end equal to minus the length, and empty lists, panic (finding)"},
 {"property": "C43", "status": "partial", "theorems": ["C43_multi_read_exact_partial", "C43_error_reported_refuted"], "note": "a lasting source error loops forever (finding)"},
 {"property": "C44", "status": "partial", "theorems": ["C44_append_with_size_partial", "C44_append_aligned_refuted"], "note": "a file without padding is overwritten from its start (finding)"},
 {"property": "C45", "status": "proved", "theorems": ["C45_int_bytes_roundtrip"], "note": ""},
 {"property": "C46", "status": "proved", "theorems": ["C46_fill_exact", "C46_fill_pattern_exact"], "note": ""},
 {"property": "C47", "status": "proved", "theorems": ["C47_extremal_exact"], "note": ""},
 {"property": "C48", "status": "partial", "theorems": ["C48_list_exact_partial", "C48_list_buckets_partial", "C48_total_refuted"], "note": "The entries are exact for every store, prefix and limit; the total is right only without prefix or when nothing is cut off."},
 {"property": "C49", "status": "partial", "theorems": ["C49_page_partial", "C49_pages_disjoint_refuted", "C49_pages_order_refuted"], "note": "Each page is right when all numbers have the same digit count, but it has one entry too many, so pages overlap; with mixed digit counts order and coverage fail."},
 {"property": "C50", "status": "partial", "theorems": ["C50_rs_range", "C50_copy_range_partial", "C50_copy_range_refuted"], "note": "full for erasure coding; for copies the bytes up to the end of the object are right, but the stream goes on into the padding of the file"},
 {"property": "C51", "status": "partial", "theorems": ["C51_nil_means_done", "C51_error_genuine", "C51_wait_ends", "C51_nil_means_success_partial", "C51_lost_error_refuted"], "note": "an error can be lost when both channels are ready"},
 {"property": "C52", "status": "partial", "theorems": ["C52_same_block_partial", "C52_block_change_refuted"], "note": "The block size is taken from the current configuration, not from the version."},
 {"property": "C53", "status": "partial", "theorems": ["C53_init_keeps_partial", "C53_init_creates_partial", "C53_init_refuted"], "note": "Refuted when the first etcd read fails: the credential is overwritten, possibly with an empty one."},
 {"property": "C54", "status": "proved", "theorems": ["C54_bucket_decides"], "note": ""},
 {"property": "C55", "status": "partial", "theorems": ["C55_locations_updated_partial", "C55_failures_below_half", "C55_locations_updated_refuted"], "note": "Fewer than half of the groups may fail and the move is still acknowledged, so the group holding the object may keep the old location."},
 {"property": "C56", "status": "partial", "theorems": ["C56_reads_current_partial", "C56_own_write_refuted", "C56_late_fill_refuted", "C56_replicated_refuted", "C56_moved_refuted", "C56_removed_refuted", "C56_same_text_refuted", "C56_restored_refuted"], "note": "Proved for every interleaving in which a step changes only things no background update is busy with and silent changes are of things not cached, object ids being no other id followed by dot and number. The code violates the unrestricted claim in seven ways, each with a concrete run: own acknowledged write not seen, late fill with old data, entries of the replicated log and moved locations and restored snapshots never told to the cache, the tenth version of a removed object, two records cached under one text."},
 {"property": "C57", "status": "partial", "theorems": ["C57_page_partial", "C57_cache_fresh_partial", "C57_repeated_refuted", "C57_order_refuted"], "note": "Proved when stored numbers and the page have the same number of digits. Otherwise the page depends on the cache: repeated entries, different order."},
 {"property": "C58", "status": "partial", "theorems": ["C58_no_restore_partial", "C58_restart_partial", "C58_read_partial", "C58_late_cleanup_refuted", "C58_crash_refuted", "C58_old_data_refuted", "C58_write_lost_refuted", "C58_read_failed_refuted", "C58_refused"], "note": "Proved at every moment for runs without an installed snapshot, and with snapshots when no write holds the database at a switch, stop follows every clean-up and the process ends after stop. Refuted otherwise: a late clean-up removes the live file, a killed process leaves the data under another name (the next start finds nothing or the data from before the snapshot), a write acknowledged during a switch is lost, a read fails."},
 {"property": "C59", "status": "partial", "theorems": ["C59_checked", "C59_agreed_partial", "C59_same_partial", "C59_log_grows", "C59_update_version_refuted", "C59_locate_refuted", "C59_lead_lost_refuted", "C59_retry_refuted"], "note": "Agreement holds when all writes use guarded methods and the leader flag does not drop between the middleware check and the service. Refuted in general: gRPC UpdateVersion is not in the guarded list, changes of locations are never logged, a flag drop in between leads to a local acknowledged write, and a save that failed by timeout but was committed is stored twice when repeated."},
 {"property": "C60", "status": "partial", "theorems": ["C60_read_back_partial", "C60_poisoned_refuted", "C60_compressed_refuted", "C60_resumable_refuted", "C60_cut_short", "C60_number"], "note": "Proved for all interleavings when the checksum is on, or when all clients announce the truth, with SHA-256 collision-free on the texts of the run and resumable uploads not compressed. Refuted without the checksum (a false announcement poisons a later deduplicated upload), for compressed resumable uploads (read back compressed), and with the checksum on every resumable upload is refused."},
 {"property": "C61", "status": "partial", "theorems": ["C61_readonly_partial", "C61_readonly_refuted"], "note": "Proved for requests that read the bucket while it is read-only; a resumable upload begun before is finished after (the bucket is not checked again)."},
 {"property": "C62", "status": "proved", "theorems": ["C62_ids"], "note": "Object identifiers are injective for names without slash, which the routes guarantee."},
 {"property": "C63", "status": "partial", "theorems": ["C63_version_partial", "C63_narrowing_refuted", "C63_remove", "C63_bucket_partial", "C63_bucket_refuted", "C63_metadata"], "note": "Proved for numbers that fit the message types (int8, int32) and version numbers below 2^31, for all histories; removing and adding metadata without restriction. Refuted beyond int32 (the number of shards is cut silently) and for creating a bucket that exists with other settings (answered with success, old settings stay)."},
 {"property": "C64", "status": "partial", "theorems": ["C64_handler_partial", "C64_repair_refuted"], "note": "The handler records the change when the request names the version (proved for all databases); the API server never names it, so every such update is refused with 400 (proved for all inputs)."},
 {"property": "C65", "status": "partial", "theorems": ["C65_kinds_partial", "C65_validation_refuted", "C65_list_refuted", "C65_rights_refuted", "C65_told", "C65_pages"], "note": "Proved: errors never become successes; 400, 404, failed validation and internal errors keep their kind through the two mappings. Refuted for versions that fail validation (always 500), for listing versions of a missing object (always 500) and for 401/403/409 and redirects."},
 {"property": "C66", "status": "partial", "theorems": ["C66_status_partial", "C66_unavailable_refuted"], "note": "Proved for all helpers but ServiceUnavailable, which answers 200."},
 {"property": "C67", "status": "partial", "theorems": ["C67_access", "C67_closed", "C67_refusal_partial", "C67_refusal_refuted"], "note": "Who passes is characterised for all configurations and requests. That a refusal reads as a failure is proved for callback servers refusing with 4xx or 5xx, and refuted for 204 (the client reads a success)."},
 {"property": "C68", "status": "partial", "theorems": ["C68_asked_partial", "C68_guarded_partial", "C68_host_refuted", "C68_target_refuted"], "note": "Proved for the object and metadata routes when the host has no dot. Refuted for hosts with a dot (the server is asked about the text before it, the handler takes the header Bucket), for HEAD and PATCH of a resumable upload (target in the token) and for the bucket routes (target in the path)."},
 {"property": "C69", "status": "partial", "theorems": ["C69_kept_partial", "C69_nonempty_partial", "C69_kept_refuted"], "note": "Proved when etcd answers the reads at start. Refuted when a read fails: the configured credential, even the empty one, replaces the stored one, and an empty user and password pass."},
 {"property": "C70", "status": "partial", "theorems": ["C70_update", "C70_choice", "C70_alone", "C70_choice_genuine", "C70_race_refuted", "C70_weighted_partial", "C70_weighted_refuted", "C70_find_partial", "C70_find_refuted", "C70_failed_update"], "note": "Proved: the list after an update, the choice of one request at a time (also as steps of the sort), and that every choice in any interleaving is a drive of the list. Refuted: two requests at the same time lose a drive from the list; the weighted balancer (not in use by default) takes a full drive for ever; a drive that answers with an error hides a file."},
 {"property": "C71", "status": "partial", "theorems": ["C71_no_leftover_partial", "C71_cleaned_partial", "C71_mount_refuted", "C71_leftover_refuted"], "note": "Proved for servers whose only mount point is the one the relative path leads to and without restarts. Refuted: the cleaner ignores the mount point of the upload, so elsewhere the file of a deleted, expired or compressed upload stays whatever happens; a restart forgets the uploads and keeps their files."},
 {"property": "C72", "status": "partial", "theorems": ["C72_commit", "C72_bytes_partial", "C72_bytes_refuted", "C72_empty_refuted", "C72_new", "C72_empty"], "note": "Proved: the file is the padded bodies, what HEAD tells and what a commit stores, in every history. That it is the bodies padded at the end holds when all but the last fill whole pages. Refuted: otherwise zeros in between; a body that breaks off stays and its repetition follows it; a compressed commit of an empty file fails with 500 and succeeds with 200 when repeated."},
 {"property": "C73", "status": "partial", "theorems": ["C73_counter_partial", "C73_leave_partial", "C73_counter_refuted", "C73_leave_refuted", "C73_start"], "note": "Proved for uncompressed pieces whose goroutine runs before the next request, names received once, no restart; there a leaving server moves all. Refuted for compressed uploads and commits, late goroutines, repeated receipts and a start; a compressed commit makes a leaving server keep a file."},
 {"property": "C74", "status": "partial", "theorems": ["C74_buckets_partial", "C74_objects_partial", "C74_cover_partial", "C74_objects_refuted", "C74_deep_refuted", "C74_name_refuted"], "note": "Proved for any number of servers up to the first 10000 entries: buckets always, objects when buckets and names have only characters that sort alike in both orders. Refuted: Metadata.ID uses the bucket as a format of Sprintf, so buckets such as b and b-c sort differently from the keys and a page repeats one object and no page shows the other; pages ending after 10000 fail; a name without a bucket is compared with the bucket's name."},
 {"property": "C75", "status": "partial", "theorems": ["C75_buckets_partial", "C75_objects_partial", "C75_totals", "C75_total_refuted"], "note": "Proved: the totals of the overview, and of pages without filter (for objects not after the last page). Refuted: with a filter the total is what was fetched; after the last page of objects it is 0."},
 {"property": "C76", "status": "partial", "theorems": ["C76_entry_partial", "C76_calm_partial", "C76_gap_refuted", "C76_left_refuted", "C76_fetch_refuted", "C76_self_refuted"], "note": "Proved: an entry is right unless a change of it was missed and none delivered since; in particular with no change between fetch and watch and no cancelled watch. Refuted: the watch starts without a revision and after a cancellation nothing is fetched again, so a missed removal or addition stays wrong until that entry changes again; a failed fetch is never repeated; a server's own entry has another key and is counted twice."},
 {"property": "C77", "status": "partial", "theorems": ["C77_mapping_partial", "C77_roles_partial", "C77_service", "C77_default_partial", "C77_panic_refuted", "C77_cut_refuted", "C77_master_refuted", "C77_service_refuted", "C77_default_refuted"], "note": "Proved for readable ids and any order of iteration. Refuted: an underscore in group or name panics with a server without a role; ids with underscores are cut, or lost among the masters; a service lists those of services whose names begin with its own; default ids leave out dots and can collide."},
 {"property": "C78", "status": "partial", "theorems": ["C78_rest_partial", "C78_returns_partial", "C78_grant_refuted", "C78_put_refuted"], "note": "Proved when requests for leases and puts do not fail. Refuted: after one failed request for a lease the loop waits for its own lock for ever and Lease blocks; a failed put is not repeated while the lease lives."},
 {"property": "C79", "status": "partial", "theorems": ["C79_one_partial", "C79_registered_partial", "C79_both_refuted", "C79_order_refuted", "C79_lease_refuted"], "note": "Proved for calls that do not overlap, after the first lease. Refuted: interleavings that leave both entries, or the role of an earlier change; a change before the first lease leaves an entry that never ends."},
 {"property": "C80", "status": "partial", "theorems": ["C80_exact_partial", "C80_rules", "C80_accepted_partial", "C80_body_partial", "C80_version_refuted", "C80_compress_refuted", "C80_index_refuted", "C80_interface", "C80_range", "C80_patch_range"], "note": "Proved without stray keys for nine of the thirteen structures; the rules of the tags hold of everything accepted, without restriction. Refuted: BindAll keeps only the last binding's error, so GET metadata takes an unreadable version for 0, POST big and the data server's GET take an unreadable compress for false, UpdateLocates takes an unreadable index for 0."},
 {"property": "C81", "status": "partial", "theorems": ["C81_places_partial", "C81_one", "C81_target_partial", "C81_granted_partial", "C81_name_refuted", "C81_bucket_refuted", "C81_interface_partial"], "note": "Proved for requests without stray keys. Refuted: gin binds a field without a tag for a source from the key of its Go name, so ?Name= or ?Bucket= replaces the name in the path or the bucket in the header after the callback server was asked."},
 {"property": "C82", "status": "proved", "theorems": ["C06_range_query_exact", "C06_valid_range_sound"], "note": "Also: an interval reported as owned is owned in all its slots. (the part of C06 that holds without restriction)"},
 {"property": "C83", "status": "proved", "theorems": ["C07_single_owner"], "note": "For every sorting of the servers. (the part of C07 that holds without restriction)"},
 {"property": "C84", "status": "proved", "theorems": ["C08_one_at_a_time", "C08_second_refused"], "note": "An invariant over all schedules. (the part of C08 that holds without restriction)"},
 {"property": "C85", "status": "proved", "theorems": ["C08_table_checked", "C08_table_changes", "C08_table_refused"], "note": "Over all schedules. (the part of C08 that holds without restriction)"},
 {"property": "C86", "status": "proved", "theorems": ["C10_wildcard_exact"], "note": "The full matcher against an inductive definition. (the part of C10 that holds without restriction)"},
 {"property": "C87", "status": "proved", "theorems": ["C16_fresh_id_accepted"], "note": "After every history. (the part of C16 that holds without restriction)"},
 {"property": "C88", "status": "proved", "theorems": ["C17_find_complete", "C17_find_stored"], "note": "After every history; a found version may have another hash, see C17. (the part of C17 that holds without restriction)"},
 {"property": "C89", "status": "proved", "theorems": ["C20_batches_agree"], "note": "Also with empty, foreign and truncated entries. (the part of C20 that holds without restriction)"},
 {"property": "C90", "status": "proved", "theorems": ["C31_keep_one", "C31_put_exact"], "note": "And one upload after any history changes nothing but adding a version and dropping at most the reported first one. (the part of C31 that holds without restriction)"},
 {"property": "C91", "status": "proved", "theorems": ["C33_dedup_complete"], "note": "For any digest function. (the part of C33 that holds without restriction)"},
 {"property": "C92", "status": "proved", "theorems": ["C34_answer", "C34_sound", "C34_live"], "note": "Hashes and keys without '.' and '#'. (the part of C34 that holds without restriction)"},
 {"property": "C93", "status": "proved", "theorems": ["C51_nil_means_done", "C51_error_genuine", "C51_wait_ends"], "note": "Over all schedules. (the part of C51 that holds without restriction)"},
 {"property": "C94", "status": "proved", "theorems": ["C59_checked", "C59_log_grows"], "note": "Over all runs. (the part of C59 that holds without restriction)"},
 {"property": "C95", "status": "proved", "theorems": ["C63_remove", "C63_metadata"], "note": "Through the gRPC client and server. (the part of C63 that holds without restriction)"},
 {"property": "C96", "status": "proved", "theorems": ["C67_access", "C67_closed"], "note": "An equivalence. (the part of C67 that holds without restriction)"},
 {"property": "C97", "status": "proved", "theorems": ["C70_update", "C70_choice", "C70_alone", "C70_choice_genuine"], "note": "The choice also as steps of the sort. (the part of C70 that holds without restriction)"},
 {"property": "C98", "status": "proved", "theorems": ["C72_commit"], "note": "After every history. (the part of C72 that holds without restriction)"},
 {"property": "C99", "status": "proved", "theorems": ["C75_totals"], "note": "For any order of iteration. (the part of C75 that holds without restriction)"},
 {"property": "C100", "status": "proved", "theorems": ["C80_rules", "C80_interface", "C80_range", "C80_patch_range"], "note": "For every structure, not only those in use. (the part of C80 that holds without restriction)"},
 {"property": "C101", "status": "proved", "theorems": ["C12_page_exact", "C12_pages_cover"], "note": "For numbers and sizes from 1. (the part of C12 that holds without restriction)"},
 {"property": "C102", "status": "proved", "theorems": ["C13_limited_read_exact", "C13_padded_write", "C13_write_read_identity"], "note": "For page-multiple buffers, which the callers use. (the part of C13 that holds without restriction)"},
 {"property": "C103", "status": "proved", "theorems": ["C50_rs_range"], "note": "For any code that recovers from enough shards. (the part of C50 that holds without restriction)"},
 {"property": "C104", "status": "proved", "theorems": ["C104_calls", "C104_flush", "C104_window", "C104_bounded"], "note": ""},
 {"property": "C105", "status": "partial", "theorems": ["C105_close_partial", "C105_close_refuted", "C105_bound_refuted", "C105_within_refuted"], "note": "Saving on Close is proved when no goroutine of PutAsync is waiting. Refuted: a measurement whose goroutine has not run when the collector is closed is lost; while the store refuses, memory grows beyond every bound."},
 {"property": "C106", "status": "partial", "theorems": ["C106_get_partial", "C106_size_partial", "C106_all_partial", "C106_all_refuted", "C106_all_wrong_refuted", "C106_dot_refuted", "C106_between_refuted", "C106_empty_refuted"], "note": "Proved for kinds and actions without dots of which none begins another, such as those in use. Refuted: Get of everything gives keys for actions, so no measurement in it was ever put; a dot in an action hides its measurements; an action that goes on with a dash hides those of the shorter one; a store without measurements answers with an error."},
 {"property": "C107", "status": "partial", "theorems": ["C107_both_partial", "C107_kind_refuted", "C107_action_refuted", "C107_exact_refuted", "C107_prefix_refuted"], "note": "Proved for both names together and for everything. Refuted: by kind alone or by action alone Clear fails as soon as there is something to clear (Delete of a nested bucket); a kind that begins another takes its measurements along from one of the two copies."},
 {"property": "C108", "status": "partial", "theorems": ["C108_sum_partial", "C108_average_partial", "C108_store_partial", "C108_overflow_refuted", "C108_dot_refuted", "C108_all_refuted"], "note": "Proved for names without dots and sums within int64. Refuted: two positive costs with a negative average; names with dots are mixed up; the local store's sum of everything has rows for no action there is."},
 {"property": "C109", "status": "partial", "theorems": ["C109_stored_partial", "C109_zero_refuted", "C109_panic_refuted", "C109_crash_refuted", "C109_lock_refuted", "C109_stuck_refuted", "C109_once_refuted", "C109_pile_refuted", "C109_clear_refuted", "C109_keeps_refuted", "C109_overwritten_refuted"], "note": "Proved: a put that ends well has stored its measurement under its key. Refuted: the lock of checkSize has the prefix of the measurements, so once one is stored no later put of any API server gets the lock, its collector saves nothing more, goroutines pile up and Close does not return; every cost read back is 0 (the text of a duration is read as an integer); two measurements at once panic in the client (Then called twice), and since Recover panics again (C117) the next flush that is due ends the API server; Clear without an action panics; two puts in one millisecond overwrite each other."},
 {"property": "C110", "status": "partial", "theorems": ["C110_within_partial", "C110_counted_partial", "C110_size_refuted", "C110_bounded_refuted", "C110_remove_refuted", "C110_oldest_refuted", "C110_lock_refuted", "C110_exclusive"], "note": "Proved: one API server at a time checks the size; n API servers store n measurements at most (the lock holds up every further put, C109), so the limit holds for up to maxSize servers; when Size counts every pair, at most two too many stay. Refuted: servers that ask before the first commits store a measurement each, whatever the limit; removeOldKeys removes one key less than asked, the first by name, not the oldest, and the key of the lock before any measurement."},
 {"property": "C111", "status": "proved", "theorems": ["C35_head"], "note": "That marks and cached bytes can outlive the file is C35's counterexample."},
 {"property": "C112", "status": "proved", "theorems": ["C07_checked"], "note": ""},
 {"property": "C113", "status": "proved", "theorems": ["C113_whole_read", "C113_padded", "C113_repeated", "C113_block_size", "C113_no_size"], "note": ""},
 {"property": "C114", "status": "partial", "theorems": ["C114_start_partial", "C114_nothing_refuted", "C114_error_refuted", "C114_stream_refuted"], "note": "Proved for offset 0. Refuted: the data server seeks in the compressed file, so an offset within the piece but past the end of the file is answered with 200 and an empty body, which the API server's stream takes for success; any other offset is an error unless a stream identifier happens to be there."},
 {"property": "C115", "status": "partial", "theorems": ["C115_checksum", "C115_damage_partial", "C115_message_refuted", "C115_unfinished_refuted", "C115_parallel_refuted", "C115_truncated", "C115_unknown"], "note": "Proved: damage is noticed, what lies before it is read right, and damage in the first block is an error. Refuted: damage after the first block is answered with 200 and the text of the error behind the bytes; a piece still being written is answered with 200 and the blocks so far; two uploads at once mix their blocks."},
 {"property": "C116", "status": "partial", "theorems": ["C116_fresh_partial", "C116_current_partial", "C116_read_seek_read", "C116_failure", "C116_start_refuted", "C116_told_refuted", "C116_refused", "C116_in_turn"], "note": "Proved for a fresh stream, and for SeekCurrent as far as the bytes delivered go. Refuted: SeekStart on a stream already read from moves on from where it is; the number returned then is the distance, not the position."},
 {"property": "C117", "status": "partial", "theorems": ["C117_http_partial", "C117_runs_iff", "C117_gin", "C117_recover_refuted", "C117_goroutine_refuted", "C117_interceptor_refuted", "C117_error_refuted", "C117_refuted", "C117_told", "C117_counted"], "note": "Proved for HTTP handlers, which gin recovers, and that a server runs on exactly as long as no gRPC call and no goroutine has panicked. Refuted for the rest: graceful.Recover and DoneGroup.Done log with logger.Panicf, which panics again, so every such panic ends the process and no group is told."},
 {"property": "C118", "status": "partial", "theorems": ["C118_locked", "C118_readers", "C118_owner", "C118_list_partial", "C118_set_partial", "C118_load_partial", "C118_pool_partial", "C118_selector_partial", "C118_stat_partial", "C118_pool_refuted", "C118_selector_refuted", "C118_combine_refuted", "C118_services_refuted", "C118_contains_refuted", "C118_stat_refuted"], "note": "Proved: maps only used under one lock, not written, or of one goroutine are safe, which gives the list of a service (but for combine), the set of errors, the first loading of measurements, and lookups alone. Refuted: getConn looks up without the lock; selectors read while another request refreshes; combine writes without the lock; the map of services is read while it is filled; WriteSyncSet.Contains; reports of measurements."},
 {"property": "C119", "status": "proved", "theorems": ["C119_one", "C119_kept", "C119_progress"], "note": "The unlocked lookup is taken for atomic here; that it is not is C118_pool_refuted."},
 {"property": "C120", "status": "partial", "theorems": ["C120_series_exact", "C120_series_partial", "C120_bounded", "C120_window", "C120_gap_refuted", "C120_closed_refuted", "C120_shared_refuted"], "note": "Proved: what is kept, exactly, in every run, and the claim when nothing is written between the reading and the watch and no two keys end alike. Refuted: reports between the reading and the watch are lost; after a watch is closed the series stay as they are; keys that end alike share a series."},
 {"property": "C121", "status": "partial", "theorems": ["C121_alive_partial", "C121_garbled", "C121_ended", "C121_fetch_refuted", "C121_incomplete_refuted"], "note": "Proved without failed readings and incomplete records (unreadable ones are harmless). Refuted: a failed first reading, and a record without processor or memory, end the admin server."},
 {"property": "C122", "status": "partial", "theorems": ["C122_usage", "C122_usage_cpu", "C122_overview_partial", "C122_unreadable_refuted", "C122_overview_refuted", "C122_kinds", "C122_no_kind"], "note": "Proved: pages show the servers of the kind with their own series; the overview of one server. Refuted: unreadable kinds are taken for the API servers and unknown series for memory; the overview is the series of whichever server comes last."},
 {"property": "C123", "status": "partial", "theorems": ["C123_servers", "C123_memory", "C123_memory_whole", "C123_garbled_refuted"], "note": "Proved: the list, if there is one, and the shares of memory. Refuted: one unreadable record, even of a server that is not registered, fails the list."},
 {"property": "C124", "status": "partial", "theorems": ["C124_name_exact", "C124_name_partial", "C124_name_only", "C124_reachable", "C124_two_refuted", "C124_one_refuted", "C124_slash_refuted"], "note": "Proved: the name seen, exactly; right for elements written as net/url writes paths or without escapes, and only for these. Refuted: one name written in two ways is two objects, two names can be one object, names with slashes are never seen as they are."},
 {"property": "C125", "status": "partial", "theorems": ["C125_upload_exact", "C125_upload_partial", "C125_download_partial", "C125_again_partial", "C125_bucket_partial", "C125_download_error", "C125_upload_refuted", "C125_download_query_refuted", "C125_download_hash_refuted", "C125_download_percent_refuted", "C125_again_refuted", "C125_bucket_refuted", "C125_control"], "note": "Proved: uploads are right exactly for names without comma, semicolon and slash; downloads and buckets for names without percent, question mark, hash, slash and control characters. Refuted for the others: uploads are stored under the escaped name, downloads read another object in another version, changes and removals hit another bucket."},
 {"property": "C126", "status": "proved", "theorems": ["C126_token"], "note": ""},
 {"property": "C127", "status": "partial", "theorems": ["C127_name_partial", "C127_location_partial", "C127_plus_refuted", "C127_location_refuted"], "note": "Proved: names without plus signs; directions for unusually written paths without a query. Refuted: plus signs in an id are read as spaces; directions lose usual paths and all queries."},
 {"property": "C128", "status": "partial", "theorems": ["C128_exact", "C128_whole_partial", "C128_range_partial", "C128_refused_refuted", "C128_cut_refuted", "C128_disk_refuted", "C128_at_once_refuted", "C128_known"], "note": "Proved: undisturbed downloads, and refusals of requests with a Range. Refuted: a refused request is answered as an empty object with status 200; a broken connection as the part that came; a failing disk as the part that was read followed by the text of the error."},
 {"property": "C129", "status": "partial", "theorems": ["C129_boundary_partial", "C129_unchecked", "C129_crash_refuted", "C129_closed_refuted", "C129_disk_refuted", "C129_retry_refuted"], "note": "Proved: servers that do not answer or break off between two blocks. Refuted: a connection lost within a block ends the API server; one closed within a block ends the download early with status 200; the error text of a failing disk is taken for the shard; a server that answers late gives its first block in place of a later one."},
 {"property": "C130", "status": "partial", "theorems": ["C130_passed_on_partial", "C130_cut_refuted", "C130_other_success_refuted"], "note": "Proved: undisturbed answers. Refuted: a broken download is a success that ends with the text of the error; a success other than 200 loses its content."},
 {"property": "C131", "status": "proved", "theorems": ["C131_own_credential", "C131_alone"], "note": "sessions have no influence at all"},
 {"property": "C132", "status": "partial", "theorems": ["C132_header_partial", "C132_login_refuted", "C132_logout_refuted"], "note": "Proved: requests with an accepted credential in their header are let through at any time. Refuted: the session of a login never lets a request through; a logout leaves the token in the cookie."},
 {"property": "C133", "status": "partial", "theorems": ["C133_guarded", "C133_changes_guarded", "C133_api_partial", "C133_commands_refuted", "C133_migration_refuted", "C133_config_refuted"], "note": "Proved: without any credential nothing is changed; changes of objects and buckets need a valid one. Refuted: any text is enough to migrate slots and to make servers join and leave; configurations are told without any."},
 {"property": "C134", "status": "partial", "theorems": ["C134_operations", "C134_no_api", "C134_commands_partial", "C134_migration", "C134_leave_refuted", "C134_config"], "note": "Proved for all operations and commands but one. Refuted: a metadata server that refuses to leave its group is reported to have left."},
 {"property": "C135", "status": "partial", "theorems": ["C135_add", "C135_add_stays", "C135_remove", "C135_remove_failed", "C135_leaders_only", "C135_sound", "C135_peers", "C135_half_refuted"], "note": "Proved but for one point. Refuted: an addition of several voters that is answered as a failure may have added some of them."},
 {"property": "C136", "status": "partial", "theorems": ["C136_remove_partial", "C136_add_refuted", "C136_first_refuted"], "note": "Proved: a removed server that is not the first on the list is taken off and the rest stays. Refuted for every case: an added server is never written down, the first server is never taken off."},
 {"property": "C137", "status": "partial", "theorems": ["C137_joins", "C137_again", "C137_refused", "C137_home", "C137_restart", "C137_both_refuted", "C137_slots_refuted", "C137_failed_refuted", "C137_overwrites_refuted"], "note": "Proved: what a reported join does, and that servers stay with the slots of their group. Refuted: the server always stays in the group it was in (its removal is asked of the new leader), it keeps its own slots when etcd has none for the group, a failed join may have happened, and a server that leads meanwhile overwrites the slots of the group."},
 {"property": "C138", "status": "partial", "theorems": ["C138_leader", "C138_last", "C138_follower", "C138_failed", "C138_forgets_refuted"], "note": "Proved: membership. Refuted: the server keeps group id, nodes and slots of the group, also after a restart."},
 {"property": "C139", "status": "partial", "theorems": ["C139_given", "C139_nodes", "C139_start", "C139_alone_refuted", "C139_skip_refuted", "C139_env_refuted"], "note": "Proved for given servers and well-formed node lists. Refuted: the command without nodes never forms a group with the server in it (the printed configuration is taken for its id), a malformed node makes it fail, and node lists from the environment always make the server panic at start."},
 {"property": "C140", "status": "partial", "theorems": ["C140_waits_partial", "C140_never_fails_partial", "C140_stops", "C140_no_new", "C140_hurry_refuted", "C140_closed_refuted", "C140_timer_refuted"], "note": "Proved for API and admin servers while their 15 seconds last. Refuted for metadata and data servers: their Shutdown never waits for the wait group, so running requests are cut off or go on with the database closed, and new ones are taken; the other servers do so when the time is over."},
 {"property": "C141", "status": "partial", "theorems": ["C141_kept_partial", "C141_same_partial", "C141_notes", "C141_other_refuted", "C141_panic_refuted", "C141_leads"], "note": "Proved for crashes, elections and stops of followers, and for a leader that leads again. Refuted: when a leader stops and another server is elected, the slots are those in the configuration of that server, whatever migrations did; a server that stops while the group has no entry panics."},
 {"property": "C142", "status": "partial", "theorems": ["C142_turns", "C142_effect", "C142_rejoin_refuted"], "note": "Proved: services start and stop in turns. Refuted: the lifecycle is closed for good by leaving, so the loop ends at once and the server is not registered."},
 {"property": "C143", "status": "partial", "theorems": ["C143_pinned_partial", "C143_few_partial", "C143_lost_refuted", "C143_dies_refuted"], "note": "Proved if a read transaction stays open, or with at most one write and no growth of the file. Refuted for the code: keys are slices of bolt's memory used after the transaction, so removals can delete a bucket that was not to be moved, without any error, and the process dies when the file is mapped anew."},
 {"property": "C144", "status": "partial", "theorems": ["C144_pinned_partial", "C144_one_partial", "C144_panics_refuted"], "note": "Proved if a read transaction stays open, or with at most one entry of a removed version. Refuted for the code: with two removed versions and another entry, of names of one length, the second removal overwrites the page the keys are in and the request panics."},
 {"property": "C145", "status": "partial", "theorems": ["C145_read", "C145_same_partial", "C145_again", "C145_rounded_refuted", "C145_zero_refuted"], "note": "Proved exactly: the nearest number of the largest unit is read, so multiples of the unit stay and a second writing changes nothing. Refuted for all other sizes (1.5 MB is read as 2 MB) and for 0, which panics. Sizes up to 2^53."},
 {"property": "C146", "status": "partial", "theorems": ["C146_hidden", "C146_shown_partial", "C146_default_refuted"], "note": "Secrets never show. All the rest shows if no size is 0. Refuted: with any size 0, such as the default distinct-size of API servers, the page is an error."},
 {"property": "C147", "status": "partial", "theorems": ["C147_same_partial", "C147_data_partial", "C147_emptied_refuted", "C147_unwritten_refuted", "C147_shared_refuted", "C147_data_refuted", "C147_settings"], "note": "Proved for a metadata server that wrote its file, and for a data server with an id or an address configured. Refuted: ending while writing leaves an empty file and no start succeeds; before the first writing the id follows the address; two servers with one file get one id; data servers write nothing and lose their directories at another address."},
 {"property": "C148", "status": "partial", "theorems": ["C148_limited_partial", "C148_small_refuted"], "note": "Proved from 1 MB on. Refuted below: bigcache takes 0 MB for no limit."},
 {"property": "C149", "status": "partial", "theorems": ["C149_read", "C149_any", "C149_write", "C149_no_slot", "C149_no_tables", "C149_served_partial", "C149_write_served_partial", "C149_election_refuted", "C149_unregistered_refuted", "C149_gone", "C149_address", "C149_peers"], "note": "The address is always of the right group. It is answered while the group, its tables and etcd agree. Refuted: until etcd names a newly elected leader writes fail and reads are turned away by all but the old leader as bad requests; if the named leader is not registered no read is possible."},
 {"property": "C150", "status": "partial", "theorems": ["C150_past", "C150_current_partial", "C150_lagging_refuted", "C150_backwards_refuted"], "note": "Each answer was true at some point of the log, and it is current if no server lags. Refuted: any server of the group may answer however far it lags, and a later read may see less."},
 {"property": "C151", "status": "partial", "theorems": ["C151_together_partial", "C151_one_second", "C151_split_refuted"], "note": "Both are of one server if the reads fall into one second, since the generator is seeded with the second. Refuted otherwise: an object whose metadata and version were both acknowledged is answered with 404."},
 {"property": "C152", "status": "partial", "theorems": ["C152_add", "C152_bootstrap", "C152_migrate", "C152_others", "C152_nothing", "C152_bootstrap_malformed", "C152_malformed_refuted", "C152_index_refuted", "C152_demote_refuted"], "note": "Well-formed lines ask for exactly what they say, unknown or short ones for nothing, and no malformed service forms a group. Refuted: add_voter with one malformed part fails after the others were added; the index has no effect at all; demote_voter removes the server."},
 {"property": "C153", "status": "partial", "theorems": ["C153_no_panic", "C153_status_refuted"], "note": "No line panics. Refuted: the status is 0 for every line and every answer."},
 {"property": "C154", "status": "partial", "theorems": ["C154_answer", "C154_kept", "C154_left_partial", "C154_join", "C154_short_refuted", "C154_again_refuted", "C154_empty_refuted", "C154_join_refuted", "C154_join_answer"], "note": "The answer is characterised, no file is lost, and with a counter not below the sizes nothing is left. Refuted: with a counter below, success is answered with files left; after a failed transfer the server can never be told again; an empty server among equals cannot leave; a joined server answers failure if its entry is not discovered yet or nobody is above the average."},
 {"property": "C155", "status": "partial", "theorems": ["C155_clean", "C155_child_partial", "C155_distinct", "C155_found", "C155_put_only_partial", "C155_delete_only_partial", "C155_receive_only_partial", "C155_dots_refuted", "C155_migration_refuted", "C155_received", "C155_appended"], "note": "Holds for names that are elements of a path (not empty, no slash, not '.' or '..'). Refuted: PUT of '.' or '..' answers success and stores nothing; a FileName with slashes over gRPC reaches every file of the machine."},
 {"property": "C156", "status": "partial", "theorems": ["C156_apart_partial", "C156_read_refuted", "C156_delete_refuted", "C156_mark_refuted"], "note": "Names of pieces are apart from uploads and marks. Refuted for other names: the record and the bytes of an unfinished upload are read and removed as an object, a mark is read as an empty object."},
 {"property": "C157", "status": "partial", "theorems": ["C157_finish", "C157_panic", "C157_survives_partial", "C157_leave_refuted"], "note": "Exact condition of success and of the panic; names with a dot never panic. Refuted: the file of an unfinished upload has no dot in its name, is sent by a leaving server and ends every registered server that takes it over."},
 {"property": "C158", "status": "partial", "theorems": ["C158_least", "C158_cached", "C158_joined_refuted", "C158_free_refuted"], "note": "By stored bytes the choice is exact when the last look is over a minute old, and by what was known otherwise. Refuted as stated: stored bytes are not free space, a full small server is preferred; an empty server that joined within the minute comes last."},
 {"property": "C159", "status": "partial", "theorems": ["C159_least_partial", "C159_wrap_refuted", "C159_missing_refuted"], "note": "Exact for loads below 2^31-1. Refuted: loads from 2^31 read as negative and come first; a server that cannot read its drives counts as idle."},
 {"property": "C160", "status": "partial", "theorems": ["C160_average_partial", "C160_info", "C160_info_sane", "C160_report", "C160_times_refuted", "C160_none_refuted"], "note": "Averages of bytes, counts and loads, and sizes are right. Refuted: times of reading and writing are always 0; without drives the report divides by zero and ends the server."},
 {"property": "C161", "status": "partial", "theorems": ["C161_leased_partial", "C161_present", "C161_stopped", "C161_forever_refuted"], "note": "Holds if the first lease comes before the first tick. Refuted otherwise: the report is put without lease and outlives a crash for ever."},
 {"property": "C162", "status": "partial", "theorems": ["C162_failed", "C162_reads", "C162_find", "C162_created", "C162_updated", "C162_deleted", "C162_version", "C162_exists_refuted", "C162_unread_refuted"], "note": "Any other answer than success changed nothing, and creating, changing, removing do what they say when the object is new or known. Refuted: in a group the creation of a record that exists is answered with 201 and keeps the old one; a change whose body cannot be read is answered with 200 and empties the name."},
 {"property": "C163", "status": "partial", "theorems": ["C163_get", "C163_delete", "C163_put", "C163_shown", "C163_missing", "C163_text_refuted", "C163_negative_refuted", "C163_latest"], "note": "Exact for every number from 1. Refuted for other texts: what is no number reads as the latest version, every negative number removes all versions."},
 {"property": "C164", "status": "partial", "theorems": ["C164_named_partial", "C164_post_refuted", "C164_put_refuted", "C164_bucket", "C164_buckets"], "note": "Kept by every request whose body agrees with its path. Refuted otherwise: the path is not compared with the body, and a change may rename."},
 {"property": "C165", "status": "partial", "theorems": ["C165_rules", "C165_page", "C165_list", "C165_json_refuted", "C165_query_refuted", "C165_negative_refuted", "C165_size_refuted", "C165_none_refuted"], "note": "Rules, missing values and zero are answered with 400; pages from 1 are as asked, with one version more. Refuted: unreadable JSON and unreadable queries are answered with 500; a negative page reads as the first; negative or huge sizes are 500, -1 an empty list."},
 {"property": "C166", "status": "partial", "theorems": ["C166_saved", "C166_issued_partial", "C166_forged_refuted"], "note": "With a token that was given out the version saved is that of the upload, and only when size and digest fit. Refuted in general: tokens are not signed, so whoever knows one piece at a data server saves a version under any bucket and name with an empty body."},
 {"property": "C167", "status": "partial", "theorems": ["C167_patch", "C167_head", "C167_issued_partial", "C167_any_refuted"], "note": "Requests go only to the pieces the token names, so with tokens given out only to servers selected. Refuted in general: a token of one's own makes the server ask any address."},
 {"property": "C168", "status": "partial", "theorems": ["C168_head", "C168_well_made_partial", "C168_issued", "C168_malformed", "C168_endless", "C168_pieces_refuted", "C168_address_refuted", "C168_endless_refuted"], "note": "Always for HEAD, and for PATCH with well-made tokens, which those given out are. Refuted otherwise: fewer pieces than shards or an address that is none panic in a goroutine and end the server; empty blocks never end, and only they do."},
 {"property": "C169", "status": "proved", "theorems": ["C169_extra", "C169_metadata", "C169_version", "C169_bucket", "C169_raft_data", "C169_slot_info", "C169_credential", "C169_disk_info", "C169_io_stats", "C169_mem_status", "C169_cpu_stat", "C169_system_info", "C169_extra_one", "C169_metadata_one", "C169_version_one", "C169_bucket_one", "C169_raft_data_one", "C169_slot_info_one", "C169_credential_one", "C169_disk_info_one", "C169_io_stats_one", "C169_mem_status_one", "C169_cpu_stat_one", "C169_system_info_one", "C169_codec", "C169_versions"], "note": "For the twelve records of the generated code; the library is modelled from the format and the calls, and the bytes behind a record are dropped by DecodeMsgp."},
 {"property": "C170", "status": "proved", "theorems": ["C170_extra", "C170_metadata", "C170_version", "C170_bucket", "C170_raft_data", "C170_slot_info", "C170_credential", "C170_disk_info", "C170_io_stats", "C170_mem_status", "C170_cpu_stat", "C170_system_info", "C170_written", "C170_order", "C170_unknown"], "note": "Reading is equivalent to a relation between values and bytes stated apart from the readers."},
 {"property": "C171", "status": "partial", "theorems": ["C171_extra_cut", "C171_metadata_cut", "C171_version_cut", "C171_bucket_cut", "C171_raft_data_cut", "C171_slot_info_cut", "C171_credential_cut", "C171_disk_info_cut", "C171_io_stats_cut", "C171_mem_status_cut", "C171_cpu_stat_cut", "C171_system_info_cut", "C171_extra_range", "C171_metadata_range", "C171_version_range", "C171_bucket_range", "C171_raft_data_range", "C171_slot_info_range", "C171_credential_range", "C171_disk_info_range", "C171_io_stats_range", "C171_mem_status_range", "C171_cpu_stat_range", "C171_system_info_range", "C171_version_room_partial", "C171_bucket_room_partial", "C171_raft_data_room_partial", "C171_slot_info_room_partial", "C171_room_refuted"], "note": "Cut records are refused and fields in range for all twelve records; room for strings is bounded by the bytes where reading succeeds. Refuted otherwise: 13 bytes make room for up to 2^32-1 strings before the first is looked at."},
 {"property": "C172", "status": "partial", "theorems": ["C172_taken_partial", "C172_kept", "C172_starts_partial", "C172_taken_refuted", "C172_lost_refuted"], "note": "Proved as long as the database can be read for a snapshot. Refuted: if WriteTo fails reading, Persist returns the nil of sink.Cancel; the library counts a snapshot that is not there and drops entries, and every later start panics."},
 {"property": "C173", "status": "partial", "theorems": ["C173_exact_partial", "C173_snapshot", "C173_again_partial", "C173_metadata_partial", "C173_metadata_refuted"], "note": "Exact if every start finds a snapshot or an untouched database; without a snapshot the log is applied to its own result, which is harmless for logs of C21 and changes version numbers of objects removed and created again."},
 {"property": "C174", "status": "partial", "theorems": ["C174_shards_partial", "C174_copies_partial", "C174_server", "C174_copy_server", "C174_reads_partial", "C174_gap_refuted", "C174_copy_refuted"], "note": "Proved if the worker groups overlook no error; servers that answered everything hold their pieces in any case. Refuted: WaitUntilError may find its workers finished before it looks at their error, so a block that did not arrive goes unnoticed and the object reads back with other bytes and no error."},
 {"property": "C175", "status": "partial", "theorems": ["C175_no_object", "C175_clean_partial", "C175_left_refuted"], "note": "No piece becomes an object unless Stored or Unavailable is told; refused uploads are cleaned up if servers answer and the last flush succeeds. Refuted: Commit(false) flushes before it removes and gives up if that fails; a failed opening, a failed last flush or a failed commit removes nothing at the other servers."},
 {"property": "C176", "status": "partial", "theorems": ["C176_stored", "C176_invalid_partial", "C176_invalid_refuted"], "note": "Right bodies are stored by servers that answer, and the answer blames the body exactly when it is wrong if the servers take all blocks. Refuted: with checksums SHA256IO drops the error of the stream, so a failing data server is told as 400 invalid file."},
 {"property": "C177", "status": "partial", "theorems": ["C177_rename", "C177_append_partial", "C177_parallel_refuted"], "note": "Proved for pieces that are renamed; proved for those that are compressed or put whole if no two append at the same time and none breaks off. Refuted: two requests that both see no file append to the same file, both are told success, and it stays wrong for ever."},
 {"property": "C178", "status": "partial", "theorems": ["C178_rename", "C178_append_partial", "C178_early_refuted", "C178_kept_refuted", "C178_broken_refuted"], "note": "Proved for pieces that are renamed and for appended ones under the same conditions when nobody writes any more. Refuted: the check only looks for a file, so a request during the writing of another or after one that broke off is told success, and no later request repairs the file."},
 {"property": "C179", "status": "partial", "theorems": ["C179_partial", "C179_refuted", "C179_kept_refuted"], "note": "Proved if the entry is not removed between the check of a PATCH and its opening of the file. Refuted: a PATCH in between makes the file again after the cleaner ran, and nothing removes it."},
 {"property": "C180", "status": "partial", "theorems": ["C180_sent", "C180_page_partial", "C180_pages", "C180_decoded_refuted", "C180_cut_refuted", "C180_lost_refuted"], "note": "Proved for all pages the console has and for addresses without & # % +. Refuted: the path is put into the query unescaped, so & cuts it, # loses the parameters too, and + and % are decoded again."},
 {"property": "C181", "status": "proved", "theorems": ["C181_api", "C181_only", "C181_files"], "note": ""},
 {"property": "C182", "status": "partial", "theorems": ["C182_whole", "C182_index", "C182_range_partial", "C182_range_refuted", "C182_second_refuted", "C182_other_refuted"], "note": "Whole files and ranges of all files but config.js are right. Refuted: ranges of config.js are read from its start or refused behind the end of the embedded file, and every file whose name ends in config.js is replaced."},
 {"property": "C183", "status": "partial", "theorems": ["C183_partial", "C183_reads", "C183_delete_refuted"], "note": "Proved for all routes but one. Refuted: DELETE is not among the allowed methods, so no bucket can be removed from another origin."},
 {"property": "C184", "status": "partial", "theorems": ["C184_plain", "C184_names_partial", "C184_delete_refuted", "C184_escaped_refuted", "C184_bucket_refuted"], "note": "Proved for names without / ? # % and for buckets in queries without & ; + # %. Refuted: names are not escaped; removing bucket a?b or a#b removes bucket a."},
 {"property": "C185", "status": "partial", "theorems": ["C185_stored", "C185_small_partial", "C185_refuted", "C185_resumable_refuted"], "note": "Everything stored was sent by somebody, and with the checksum on a PUT below DistinctSize is answered only if its body has the announced digest. Refuted: from DistinctSize on, and for resumable uploads without the checksum, an announced digest that is already stored gives a version in a bucket of the client's choice though nothing was sent, so knowing a digest is enough to read an object of another bucket."},
 {"property": "C186", "status": "partial", "theorems": ["C186_once", "C186_answers_partial", "C186_found_partial", "C186_stopped_refuted", "C186_unasked_refuted"], "note": "Answers are right and come at most once always; none is missing while the watch of the server stays open and puts work. Refuted: questions put while a watch is closed are never answered, since it is opened again from then on; a failed put is waited for."},
 {"property": "C187", "status": "partial", "theorems": ["C187_clean_partial", "C187_late_refuted", "C187_twice_refuted", "C187_forever_refuted"], "note": "Proved for requests that found their object, if no piece lies on two servers. Refuted: answers that come after the deletion, because the request gave up or a piece lies on two servers, make the key anew, and it stays for ever."},
 {"property": "C188", "status": "partial", "theorems": ["C188_stored", "C188_right_partial", "C188_complete_partial", "C188_kept_partial", "C188_alone", "C188_kept_refuted", "C188_migrated_refuted", "C188_right_refuted"], "note": "What is answered was stored when looked at, always. Content, completeness and the keeping of entries are proved when no object is removed and no version comes from another server. Refuted: an object removed and stored again with the same content (or a version migrated back) between a search's miss and its removal of the entry is never found by its content again."},
 {"property": "C189", "status": "partial", "theorems": ["C189_alone", "C189_newest", "C189_content", "C189_source", "C189_apart", "C189_enough", "C189_grows_refuted"], "note": "Proved for every interleaving: own numbers, own content, the newest stays, at least as many as promised stay. Refuted for every count: with never more than two uploads under way in a bucket that keeps one version, any number of versions piles up, because both read the same first version and later uploads remove only one each."},
 {"property": "C190", "status": "partial", "theorems": ["C190_apart_partial", "C190_answered", "C190_source", "C190_stays", "C190_refused", "C190_one_row", "C190_twice_refuted", "C190_mixed_refuted", "C190_early_refuted", "C190_versions_refuted", "C190_taken_refuted"], "note": "Proved for requests one after another, and for objects of one row whatever overlaps; an answer of 200 always means a version and all files stored. Refuted for overlapping requests: a retry while the first attempt is still served stores every row twice and in orders that differ between servers; a request that finds the size on server 0 stores the others' files before they are complete; two answers of 200 and two versions; a request that is too long deletes the files of an honest one whose version is recorded."},
 {"property": "C191", "status": "proved", "theorems": ["C191_reads", "C191_object", "C191_repair", "C191_read_shards"], "note": "Assumes of the library that it refuses rows of unequal shards, leaves those it is given alone and restores to the same length. Repair writers have only slots without reader."},
 {"property": "C192", "status": "partial", "theorems": ["C192_copies", "C192_exact", "C192_whole_partial", "C192_small", "C192_abandoned_refuted", "C192_late", "C192_late_refuted", "C192_direct", "C192_admin_partial", "C192_admin_refuted", "C192_opened", "C192_stuck_refuted"], "note": "Proved for copies, for erasure-coded objects read to the end and for shards within the window. Refuted: closing the stream of an erasure-coded object does not close its readers, so that a client that stops early leaves a sender at every data server; a browser that leaves a download through the admin server leaves all three servers waiting; a repair that cannot begin leaves goroutines and files."},
 {"property": "C193", "status": "partial", "theorems": ["C193_which", "C193_mails", "C193_only", "C193_unset", "C193_addressed", "C193_says_partial", "C193_forged_refuted", "C193_exit_refuted", "C193_untaken_refuted", "C193_tells"], "note": "Proved: which lines cause a mail, one mail for each while the process lives and the mail server takes them, no other mail, and that the page says the line when it has no < or &. Refuted: a version that is no number is logged as an error with its text, and the page takes the text as markup, so that any caller draws tags into the mails of the operators; a line logged just before the process ends, or refused by the mail server, is never mailed."},
 {"property": "C194", "status": "partial", "theorems": ["C194_field_partial", "C194_all_partial", "C194_env", "C194_needed", "C194_variables", "C194_blank_refuted", "C194_flags_refuted", "C194_async_refuted", "C194_read"], "note": "Proved for files without no, 0 and empty texts; the environment always decides; required settings; keys and variables are distinct. Refuted: a zero value in the file is replaced by the default; copy-async and rewrite-async, and no other flags, cannot be switched off by a file, so repairs of copies are never waited for and their failures not told."},
 {"property": "C195", "status": "partial", "theorems": ["C195_runs", "C195_both_partial", "C195_short_refuted", "C195_one_refuted"], "note": "Proved: exactly when a server starts; it does with both timeouts given, in order and of 500ms at least. Refuted: with a shorter heartbeat it panics, and with one timeout given that does not fit the default of the other."},
 {"property": "C196", "status": "partial", "theorems": ["C196_least", "C196_whole_partial", "C196_copies", "C196_uneven_refuted"], "note": "Proved for copies, and for numbers of shards that divide the packet size; never lowered. Refuted: any number of shards that does not divide the raised block gives a block that is no whole number of packets."},
 {"property": "C197", "status": "partial", "theorems": ["C197_waits_partial", "C197_early_refuted", "C197_async"], "note": "Proved for the runs in which all goroutines were started before the waiting begins. Refuted: they are counted by another goroutine, so the waiting can end before the first is started, and failures are lost. With rewrite-async on nothing is told."},
 {"property": "C198", "status": "partial", "theorems": ["C198_once", "C198_known_partial", "C198_fault_refuted"], "note": "Proved for servers whose readable drives are not none; each server once and never the server itself, without condition. Refuted: an answer with 500 is read as a server that stores nothing, so a leaving server gives it all."},
 {"property": "C199", "status": "partial", "theorems": ["C199_moved", "C199_share", "C199_joiner_partial", "C199_joiner_refuted", "C199_nothing_refuted"], "note": "Proved: nothing is lost or doubled; after a join told as done the others hold the share at most, less one file at least if they gave; the server that joined holds the share and a file from each other at most, if none was below the share. Refuted: with servers below the share it is given what they miss too (twice its share); if nobody is above the share, failure is told."},
 {"property": "C200", "status": "partial", "theorems": ["C200_refused", "C200_settings", "C200_stays", "C200_anew_partial", "C200_gone_refuted", "C200_anew_refuted", "C200_late_refuted"], "note": "Proved: uploads into a deleted bucket are refused without effect and late ones do not bring it back; a bucket made anew has the new settings only; a bucket no upload ever named is empty. Refuted: deleting a bucket changes no answer to any reader, the old objects are in the bucket made anew, and an upload that read the bucket before is stored after it is gone."},
 {"property": "C201", "status": "partial", "theorems": ["C201_kept", "C201_others", "C201_brought", "C201_never_refuted", "C201_heap_refuted"], "note": "Proved: the bytes of every version are there whatever was removed, requests about one object or version leave the others, nothing is held that was not uploaded. Refuted: no request ever makes the data servers hold less; any amount can be held while nothing can be read."}
]}
