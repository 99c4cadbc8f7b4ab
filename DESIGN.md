# Formal model of goodfs in Rocq (Coq 8.16.1)

## Layout

* `rocq/theories/<Area>_Model.v`  executable Gallina model, one definition per Go function, each with the file and lines it models.
* `rocq/theories/<Area>_Spec.v`   small independent specification (sets, maps, relations) used by the statements.
* `rocq/theories/<Area>_Proofs.v` and further files of the area: lemmas.
* `rocq/theories/<Area>_Props.v`  only the property theorems, `Print Assumptions` below each, and `Example`s showing
  that a concrete, non-trivial case meets the hypotheses.
* `seeded/LOG.jsonl` one line per wrong program tried against the theorems.

Where the code does not satisfy a property, the full statement stays in `properties.jsonl`, the negation is proved as
`..._refuted` with a concrete witness, and the strongest true restriction found is proved as `..._partial`.

## What is modelled

| area | Go code | files |
|------|---------|-------|
| Text and numbers | strconv, strings.Split/Cut, fmt.Sprint of integers | `Str_*` |
| Hash slots | common/hashslot: edges, wrap-around, search, validation, printing, combining, removing, range lookup | `HashSlot_*` |
| Utilities | common/datasize, common/util (wildcards, paging, extremal index), common/request (range header) | `Util_*` |
| Codec | uvarint-framed array codec | `Codec_*` |
| Readers | direct-I/O, limited and buffered readers, block-padded files | `Reader_*` |
| Metadata store | metaserver repo/logic/service: bolt buckets as finite maps, indexes, versions, listing, raft log entries, batches, snapshots of commands | `Meta_*` |
| Erasure-coded streams | rs encoder/decoder, put/get streams, repair, range reads, block sizes | `Rs_*`, `Layout_Props` |
| Replicated streams | copy put/get streams, repair, range reads | `Copy_*` |
| Uploads | put stream state, worker group, order of effects, resumable upload | `Upload_*`, `Resume_Proofs` |
| API server | data server selection, authentication chain, password initialisation, content names, layout from bucket, locating | `Api_*` |
| Retention | StoreObject against the metadata store model | `Retain_*` |
| Path index | object_path_cache: text-encoded path lists | `Path_*` |
| Data server store | put, get, head, delete, commit, object cache, path index and existence marks with their background tasks | `Store_*` |
| Moving objects | migration plan with float64 rounding, distribution of files, stream loop, transfer protocol with open-file semantics, metadata acceptance | `Migrate_*` |
| Slot ownership | slot tables in etcd, migration of slots between two metadata groups with its faults, slot check of requests | `Owner_*` |
| Migration status | compare-and-swap status machine with arbitrary schedules, StartMigration run alone | `Status_*` |
| Moving metadata | ReceiveItem, migrateMetadata, migrateBuckets on the stores of `Meta_*`, every pattern of lost items, lost answers and failed deletions | `Move_*` |
| Record cache of the metadata server: reads through it, background updates, pages of versions | MetadataRepo, BucketRepo and their cache repositories, the goroutines they start, batch writes, restored snapshots | `Cache_*` |
| Database file of the metadata server: opening, writes and reads split at their loads, installed snapshots, stop, process end and restart as a step machine | db/storage.go, Restore in metadata_repo.go, pool.go 72-100 (a file is the list of its writes) | `Storage_*` |
| Admission of metadata writes, choice between log and local repository, agreement of the servers | metaserver controller/grpc/middleware.go, controller/http/middleware.go, raftimpl/raft_apply.go, service/metadata_service.go | `Admit_*` |
| Storing and reading an object from request to metadata and back: PUT and resumable uploads in parallel, deduplication, checksum, read-only buckets, GET of a version (`object_service.go` 111-248, `big_api.go` 40-273, `objects_api.go` 28-95, `metadata_repo.go`, `version_repo.go`) | shards of one version hash are one entry; compression is a pair of functions; one raft group; issued tokens only | `Client_*` |
| The API server's gRPC calls to the metadata server, their handlers and validation, the mapping of errors in both directions, and the HTTP answer helpers (`grpcapi/meta_server.go` 44-103, 120-242, `controller/grpc/metadata_server.go` 44-167, 180-188, `common/response`, `common/proto/generate.go` 21-36) | the server asked leads and owns the key; no lost connections; messages of errors left out; `GetMetadata` and `GetPeers` left out | `Rpc_*` |
| The checks in front of the API server's routes (white list, callback, password) and the first writing of the credential (`componet/auth/auth_middleware.go`, `callback_validator.go`, `password_validator.go`) | requests reduced to the fields read; callback server and etcd as functions; HTTP header parsing left out | `Auth_*` |
| The list of drives of a data server and the choice among them, with requests sorting the shared list step by step (`component/driver_manager.go` 33-64, 86-121, `driver_balancer.go`) | what the system reports is given; insertion sort for all lengths; the factor of the weighted balancer is given | `Drive_*` |
| Uploads of pieces on a data server: POST, PATCH, HEAD, DELETE, PUT, expiry, the cleaner and restarts; the counter of stored bytes with its goroutines (`temp_service.go`, `temp_rest.go`, `objects_service.go`, `object_capacity_db.go`) | direct I/O as padding to whole pages; the compressor is given; file names unique ids | `Piece_*` |
| The admin server's listings of objects and buckets over all masters, with totals (`adminserver/.../metadata_logic.go` 48-125, 246-260, `webapi/metadata_server.go`, `msg/metadata.go` 24-26) | requests do not fail on the way; `Sprintf` for formats without `%`, other formats are given; the sort is any sorting function | `Admin_*` |
| Registration and discovery: keys and ids, the watched copy, the lease loop, changes of role (`common/registry/*.go`, `cst/etcd_prefix.go`, metaserver `registry_logic.go`, `raft_impl.go` 128-152) | etcd is one log of events; addresses are given, not detected; unlocked accesses are atomic | `Registry_*` |
| From requests to values: `BindAll` and the structures of the handlers (`*/internal/entity/binder.go`, apiserver and objectserver `entity/dto.go`, the handlers binding through them) | gin 1.9.1's mapping, conversion and validation and encoding/json are written out by hand from their sources; JSON keys are compared exactly; ASCII header names | `Bind_*`, `BindAuth_*` |
| Measurements: the collector, the local store, the shared store (`common/performance`, `common/util/slices/slices.go`) | bbolt is sorted pairs with sequence numbers and whole transactions, etcd is sorted pairs and always answers, its lock waits for every key made before its own under the prefix, of the keys of the lock only that of the holder is counted when old keys go; clientv3's Txn panics at a second Then; the text of a duration is a parameter; getStore and the metrics nobody reads | `Perf_*` |
| Compressed pieces: s2 frames, reading them over HTTP, the API server's stream of a piece (`objects_service.go`, `objects_rest.go`, `get_stream.go`) | s2 is its chunks with any packer that can be undone and any checksum; bytes are numbers; no disk errors; the cache in front is in `Store_*` | `Comp_*` |
| Panics: `graceful.Recover`, the gRPC interceptors, `DoneGroup.Done`, gin's recovery (`recover.go`, `h2c_handler.go`, `done_group.go`) | a goroutine is its deferred calls and the panic of its body; logrus's `Panicf` panics; stacks are not modelled | `Panic_*` |
| Shared maps and their locks: pools of connections, selectors' figures, lists of services, sets of errors, measurements (`base.go`, `conn.go`, `space_first_selector.go`, `weighted_io_first.go`, `service_list.go`, `etcd_discovery.go`, `map_set.go`, `server_stat_db.go`) | programs are their accesses and locks; an access is two steps; the runtime notices every access that begins during a write | `Race_*` |
| Measurements on the admin server: reports in etcd, series, pages, list of servers (`server_stat_db.go`, `server_monitor.go`, `server_state.go`, `system_info.go`) | etcd as in `Registry_*`; decoding of a record is a parameter; no times of points; accesses to the maps atomic | `Mon_*` |
| Names in URLs: escaping, parsing, route parameters, requests of the admin server, tokens, directions to other servers (`server.go`, `api_server.go`, `http.go`, `discover_logic.go`, `big_api.go`, `dto.go`) | net/url and gin's lookup modelled; no redirects for surplus slashes | `Url_*` |
| Downloads that break off: failing disks, broken connections, the readers of shards, the answers of API and admin server (`objects_api.go`, `get_stream.go`, `rs_decoder.go`, `objects_rest.go`, `object.go`) | no repairs along with the download, error texts are parameters | `Break_*` |
| Sessions, credentials, routes and answers of the admin server (`auth.go`, `http_server.go`, `metadata.go`, `object.go`, `server_state.go`, `api_server.go`, `*_logic.go`) | names and contents in other models; no cross-origin headers | `Console_*` |
| Making, joining and leaving groups of metadata servers (`raft_cmd_server.go`, `raft_cluster_logic.go`, `peers_logic.go`, `middleware.go`, `NewRaft`, `config.go`) | an accepted raft change is committed at once; leaders change only by removal; configuration files are written at once; library check `check_conf` as in hashicorp/raft | `Group_*` |
| Stopping: shutdown against running requests (`graceful.go`, `Shutdown` of the servers, deferred calls of `Run`), slots of a group over stops and elections, leaving and joining again of data servers (`pool/instance.go`, `DeadLoop`) | a request is a number of steps that need the database; leaders as raft tells them; the kept services are numbers | `Stop_*` |
| Memory of bolt after its transaction: `migrateBuckets` with its removals, `FindByHash` with its removals | a bucket of bolt is one leaf page, header bytes are zeros, the page a write takes is a parameter, the bucket cache holds nothing; bolt's rules for pages and mappings are assumed | `Borrow_*` |
| Configurations: `DataSize.String`, `Config`/`GetConfig`, `ReadConfigFrom`, `initialize`, `Persist`, cache limits | `math.Log` is a parameter that may err near borders of units; the fields are those others are derived from; a file is empty or whole; addresses are not IPv6 | `Conf_*` |
| Way of metadata requests: `KeySlotLocation`, `SelectMetaServerGRPC`, `GetMetaServerGRPC`, `RandomSelector.Select`, `FindByName`, `GetMetadata` | the generator is a parameter by second; a server not reached is an error; a read is one look at the database; caches of the API server are not in between | `Route_*` |
| Command lines: `cmd.Run`, `raft`, `start-migration`, `get-slots`, `rpc`, `app`; `LeaveCommand`, `JoinCommand` | what is printed is not modelled; dialling does not fail; the transfers of a plan succeed or not by file | `Cmd_*` |
| Directories and paths of a data server (`filepath.Clean`, `Join`, `FindRealStoragePath`, `Exist`, `Put`, `Get`, `Delete`, uploads), files taken over (`ReceiveData`, `FinishReceive`, `OpenFile`, `FinishObject`) | no padding and compression, no symbolic links, goroutines of a request have run, no errors of the file system but a directory in the way | `Dir_*` |
| Choice of data servers by load (`FreeSpaceFirst`, `WeightedIOFirst`, `Info` of `/stat`), numbers of disks (`GetAverageIOStats`, `GetInfo`), reports in etcd (`StatSyncer`) | one request at a time; fetching takes no time; a tick is one step; no CPU and memory numbers (see `Mon_*`) | `Sel_*` |
| pages of metadata, versions and buckets of the metadata server (metadata_rest.go 30-85, version_rest.go 30-121, bucket_rest.go 30-86, metadata_service.go 26-176, bucket_service.go 20-62, request.go 20-25) | a body is read, or ends with an error after part of it; checks in front of the handlers (Admit, Owner, Url); no caches (Cache); writes in a group do not fail (Group); lists of metadata and buckets (Admin) | `Rest_*` |
| continuing a resumable upload with any token: who is asked, what is saved, how the request ends (big_api.go 117-202, rs_resumable_stream.go 11-82, rs_put_stream.go 14-68, rs_encoder.go 19-110, put_stream.go 42-68, object_server.go 14-98) | [gob] decodes every token, so a request is the token it decodes to; the body comes in one piece; what data servers do with pieces (Piece), digest and saving are given from outside | `Token_*` |
| MessagePack bytes of records: the generated MarshalMsg and UnmarshalMsg of Metadata, Version, Bucket, RaftData, SlotInfo, AdminCredential, system.Info and its parts (metadata_gen.go, raft_data_gen.go, slot_info_gen.go, admin_credential_gen.go, disk, mem and cpu model_gen.go, system_info_gen.go), EncodeMsgp and DecodeMsgp (util.go 194-209) | the library tinylib/msgp is modelled from the format and the calls; floats are their bits, widening four bytes to eight is given from outside; nested skips are counted instead of recursed; the stream twins EncodeMsg and DecodeMsg and Msgsize are left out | `Pack_*` |
| Snapshots of the metadata server: Snapshot, Restore, Persist (fsm_impl.go 166-200) with the stores of raft_impl.go 110-126 | the consensus library (taking, counting, dropping entries, restoring at start) is modelled from its documentation and sources; one server, every entry in its log committed; no terms, configurations or snapshots sent by a leader; file names of snapshots left out | `Snap_*` |
| Uploads with failing data servers: streamToDataServer (object_service.go 196-232), RSPutStream, CopyPutStream, rsEncoder, PutStream with every POST, PATCH, PUT and DELETE failing before or after it is done | requests are atomic at a data server except a body that breaks off; requests still running when a group answers an error are taken as finished before the next begins; nothing stored yet under the names; removing an upload removes its file; compression left out | `Net_*` |
| Requests that overlap at a data server: Put and CommitFile of one name (objects_service.go 82-106, 286-326) as step machines; PATCH, PUT and DELETE of one upload with the cleaner (temp_rest.go 19-81, temp_service.go 20-62) | one mount point; one write to a file opened for appending is one step; the requests carry the same bytes; the cache of known names and the index are left out here (`Store_*`) | `Twin_*` |
| Web console: embed.go 21-52 (Open, Exists), configjs.go 14-40, http_server.go 20-56 (static files, routes, redirect, CORS), index.vue 96-103, the requests of ui/src/api | one range at most; session cookie left out (`Console_*`); browser and vue-router modelled on ASCII texts without control characters, backslashes and dot segments; net/http, static and cors modelled from their documentation | `Web_*` |
| Who sent what is stored: the requests of `Client_*` seen from the sender | nothing new modelled | `Possess_*` |
| Asking for pieces over etcd: object_service.go 65-109 (LocateObject), locate.go 37-99 (StartLocate, handlerLocate) with many requests and servers, watches that stop | texts are C34; one event per response; stored pieces fixed; etcd delivers events in order to open watches | `Seek_*` |
| Finding by hash beside writes: metadata_service.go 205-229 (FindByHash) with hash_index_repo.go 16-27, transaction by transaction | keys are copies (aliasing is C144); no cache; the final sync is left out | `Search_*` |
| Uploads at once, metadata side: object_service.go 111-194 (StoreObject) and big_api.go 222-272, request by request, with failed reads, repeated metadata and lost background removals | content transfer and reading the bucket do not touch the store; entries applied as in raft's batches; lost answers are the request followed by an early end | `Churn_*` |
| Requests continuing one resumable upload at once: big_api.go 137-203, rs_resumable_stream.go 64-77, rs_encoder.go 39-112, rs_put_stream.go 48-68, put_stream.go 42-68, temp_rest.go 19-106, objects_service.go 286-326 | rows as numbers, files as lists of rows; commands to data servers carried out or refused, not lost; failures always noticed; no checksum or compression; look-up and append in one step; metadata only noted | `Tandem_*` |
| Memory of the decoder, cache and shards in one buffer: rs_decoder.go 14-137 | as Rs_*; chunks of the shards in any order; whether the library reuses an empty slice is a parameter; a write of Go's append beyond the buffer does not occur | `Alias_*` |
| What downloads keep open: get_stream.go, copy_get_stream.go 45-69, rs_decoder.go 44-137, rs_get_stream.go 27-72, 113-139, objects_api.go 58-94, adminserver object.go 45-65 | bodies as lengths; the flow-control window of http2 and the buffers between admin and API server are parameters; repairs and broken answers left out | `Hold_*` |
| Mails about errors: error_hook.go, logs/config.go 10-20, logs.go 36-77, response.go 110-137 and the errors of strconv behind metadata_api.go 28-37 | times, places and names of types are texts; SMTP only takes a mail or not; bytes above 0x7e are not quoted | `Notice_*` |
| How the four servers settle their settings from file, environment and defaults (cleanenv), the block sizes of the API server, raft's check of the timeouts, waiting for repairs | cleanenv and raft's check are trusted models of the libraries; numbers are read by a parameter; a file is a value for each key | `Setup_*` |
| What a joining or leaving data server learns of the others' stored bytes, the files of all servers after a join | servers asked send one after the other; counters are the sizes of the files; nothing else changes meanwhile | `Share_*` |
| Deleting buckets, objects and versions, uploads and reads after it, the bytes left on the data servers | one request after the other, pieces of an object are one entry, data servers lose nothing, no caches | `Estate_*` |

Lists of bytes stand for byte slices, finite maps for bolt buckets, and every loop is structural or runs on fuel with an
explicit outcome when the fuel ends. Machine integers wrap explicitly (mod 2^64) where the code can overflow. Calls to
other programs (Reed-Solomon library, SHA-256, etcd, random numbers, clocks, disk usage) are parameters, with their
laws stated as hypotheses of the theorems (for the code library: `mds`, met by a concrete exclusive-or code). Goroutines
are step machines whose schedules are arbitrary lists of steps.

## Properties, status and theorems

Full statements are in `properties.jsonl`. "partial" means: the full statement fails for the code (or was not
reached) and the theorems named `_partial` prove a restriction, those named `_refuted` prove a concrete violation.

| id | title | status | theorems |
|----|-------|--------|----------|
| C01 | Accepted slot tables give every slot exactly one owner | proved | `C01_slot_lookup_exact`, `C01_slot_single_owner` |
| C02 | Slot tables are rejected exactly when malformed or overlapping | proved | `C02_table_accepted_iff`, `C02_edges_valid_iff`, `C02_range_text_iff` |
| C03 | Slot ranges survive printing and parsing | proved | `C03_ranges_roundtrip` |
| C04 | Removing slots takes away exactly the requested slots | proved | `C04_remove_exact`, `C04_remove_wellformed` |
| C05 | Adding slots gives exactly the union | proved | `C05_combine_union`, `C05_combine_owner_refuted` |
| C06 | Range query reports coverage exactly | partial | `C06_range_query_exact`, `C06_valid_range_sound`, `C06_valid_range_complete_partial`, `C06_valid_range_complete_refuted` |
| C07 | A slot migration conserves slots and keeps one owner per slot | partial | `C07_conserved_partial`, `C07_single_owner`, `C07_cancel_refuted`, `C07_faults_refuted`, `C07_stale_refuted`, `C07_checked` |
| C08 | At most one migration at a time, and it always returns to normal service through finish or failure | partial | `C08_one_at_a_time`, `C08_second_refused`, `C08_table_checked`, `C08_table_changes`, `C08_table_refused`, `C08_sequential_partial`, `C08_returns_partial`, `C08_table_refuted`, `C08_stuck_refuted`, `C08_double_finish_refuted`, `C08_timer_refuted` |
| C09 | Data size texts mean what they say | partial | `C09_size_text_iff`, `C09_size_exact_partial`, `C09_size_exact_refuted` |
| C10 | Wildcards match exactly the glob language | partial | `C10_wildcard_exact`, `C10_simple_exact`, `C10_simple_doc_refuted` |
| C11 | Encoded record arrays decode to the same records | proved | `C11_array_roundtrip`, `C11_array_reject`, `C11_decode_malformed_refuted` |
| C12 | Paging neither loses nor repeats items | partial | `C12_page_exact`, `C12_pages_cover`, `C12_every_page_number_refuted` |
| C13 | Direct-I/O readers return exactly the stored bytes | partial | `C13_limited_read_exact`, `C13_padded_write`, `C13_write_read_identity`, `C13_any_buffer_refuted` |
| C14 | Version numbers are strictly increasing and never reused | partial | `C14_numbers_grow_partial`, `C14_reuse_refuted` |
| C15 | The metadata store behaves like a map of objects to numbered versions | proved | `C15_store_is_map` |
| C16 | Re-delivered version writes are recognised | partial | `C16_stored_id_refused_partial`, `C16_fresh_id_accepted`, `C16_free_after_remove_refuted`, `C16_migrated_refuted` |
| C17 | Find-by-hash returns exactly the versions holding that content | partial | `C17_find_complete`, `C17_find_stored`, `C17_find_exact_partial`, `C17_find_exact_refuted`, `C17_update_locate_refuted` |
| C18 | Latest version means the newest version | partial | `C18_latest_partial`, `C18_text_order`, `C18_latest_refuted` |
| C19 | Stale updates never overwrite newer data | proved | `C19_stale_version_refused`, `C19_stale_metadata_refused`, `C19_stale_bucket_refused`, `C19_version_identity`, `C19_metadata_identity` |
| C20 | Replicas that apply the same log agree, however it is batched | partial | `C20_batches_agree`, `C20_single_vs_batch_partial`, `C20_single_vs_batch_refuted`, `C20_absent_field_refuted` |
| C21 | A restart that replays the log reproduces the same data | partial | `C21_replay_partial`, `C21_replay_recreated_refuted`, `C21_replay_failed_refuted`, `C21_replay_removal_refuted` |
| C22 | Erasure-coded objects read back intact with up to P shards missing | proved | `C22_read_back`, `C22_read_complete` |
| C23 | Stored shards survive block padding on the data servers | partial | `C23_shards_intact_partial`, `C23_end_to_end_partial`, `C23_config_partial`, `C23_three_shards_refuted`, `C23_ten_bytes_refuted` |
| C24 | Uploads always terminate | partial | `C24_upload_terminates_partial`, `C24_small_object_refuted` |
| C25 | Replicated objects read back intact from any copy | proved | `C25_copies_read_back`, `C25_all_lost` |
| C26 | Repair on read never damages an object | partial | `C26_rs_repair_partial`, `C26_rs_prefix_refuted`, `C26_rs_order_refuted`, `C26_copy_repair_partial`, `C26_copy_forgets_refuted`, `C26_copy_prefix_refuted`, `C26_copy_range_refuted` |
| C27 | An object version becomes visible only after its data is committed | partial | `C27_store_partial`, `C27_store_group_partial`, `C27_store_lost_error_refuted`, `C27_big_refuted` |
| C28 | Resumable uploads report the exact durable offset | partial | `C28_offset_exact_partial`, `C28_resume_completes_partial`, `C28_object_intact_partial`, `C28_partial_answer_refuted`, `C28_padding_refuted`, `C28_server_failure_refuted`, `C28_offset_bounded` |
| C29 | Each upload stream is finished exactly once | proved | `C29_finish_once`, `C29_late_write_refused`, `C29_stays_committed` |
| C30 | Shards are spread evenly over the data servers | proved | `C30_even_spread`, `C30_own_server` |
| C31 | Version retention keeps the newest versions | partial | `C31_keep_one`, `C31_keep_newest_partial`, `C31_put_exact`, `C31_oldest_removed_partial`, `C31_keep_newest_refuted`, `C31_switch_off_refuted`, `C31_concurrent_refuted` |
| C32 | A request is served only if allowed | proved | `C32_passes_iff`, `C32_refusal`, `C32_password`, `C32_callback` |
| C33 | Equal dedup keys mean equal content and layout | partial | `C33_dedup_partial`, `C33_dedup_complete`, `C33_dedup_refuted` |
| C34 | Locating an object is complete | partial | `C34_answer`, `C34_sound`, `C34_complete_partial`, `C34_live`, `C34_complete_refuted` |
| C35 | A stored object is read back unchanged from a data server | partial | `C35_whole_read_right_partial`, `C35_stored_stays_readable_partial`, `C35_range_poisons_cache_refuted`, `C35_range_ignored_refuted`, `C35_failed_upload_kept_refuted`, `C35_read_during_upload_refuted`, `C35_parallel_uploads_refuted`, `C35_deleted_served_refuted`, `C35_late_index_refuted`, `C35_head` |
| C36 | The path index finds every stored path | partial | `C36_history_get_partial`, `C36_history_last_partial`, `C36_puts_only`, `C36_encoding_round_trip`, `C36_encoding_separator_free`, `C36_last_is_latest_put`, `C36_last_is_recorded`, `C36_last_of_one_never_found`, `C36_last_refuted`, `C36_remove_only_leaves_empty`, `C36_remove_refuted`, `C36_remove_latest_leaves_empty`, `C36_remove_substring_refuted`, `C36_percent_refuted` |
| C37 | Server leave plans move everything | partial | `C37_leave_covers_partial`, `C37_join_excess_partial`, `C37_average_exact`, `C37_leave_rounding_refuted`, `C37_every_file_sent`, `C37_leave_moves_all_partial`, `C37_join_overshoot_one_file`, `C37_join_sends_more_refuted` |
| C38 | Object migration never loses an object | partial | `C38_no_loss_partial`, `C38_no_loss_atomic_open_partial`, `C38_stream_is_file`, `C38_empty_file_never_ends_refuted`, `C38_same_size_leftover_refuted`, `C38_overlapping_transfers_refuted`, `C38_overlapping_creation_refuted`, `C38_running_upload_refuted` |
| C39 | Wrong-server metadata requests are redirected, right ones served | partial | `C39_routed_partial`, `C39_unkeyed`, `C39_http_read_refuted`, `C39_stale_refuted` |
| C40 | Metadata migration moves every key exactly once | partial | `C40_move_partial`, `C40_nothing_dropped_partial`, `C40_repeat_partial`, `C40_stores`, `C40_back_refuted`, `C40_times_refuted`, `C40_counter_refuted`, `C40_failed_gone_refuted`, `C40_changed_between_refuted`, `C40_changed_during_refuted`, `C40_stale_cache_refuted` |
| C41 | Range headers are read as written | partial | `C41_range_header_roundtrip`, `C41_suffix_range_refuted` |
| C42 | Chunks by possibly negative indexes are the right elements | partial | `C42_chunk_exact_partial`, `C42_chunk_total_refuted` |
| C43 | Concatenated readers deliver the concatenation and report errors | partial | `C43_multi_read_exact_partial`, `C43_error_reported_refuted` |
| C44 | Appending to a padded file keeps its content | partial | `C44_append_with_size_partial`, `C44_append_aligned_refuted` |
| C45 | Numbers stored as bytes read back the same | proved | `C45_int_bytes_roundtrip` |
| C46 | Bulk fill sets every element | proved | `C46_fill_exact`, `C46_fill_pattern_exact` |
| C47 | Extremal selection picks an extremal element | proved | `C47_extremal_exact` |
| C48 | Listing by prefix returns exactly the matching entries in order | partial | `C48_list_exact_partial`, `C48_list_buckets_partial`, `C48_total_refuted` |
| C49 | Pages of versions partition the versions of an object | partial | `C49_page_partial`, `C49_pages_disjoint_refuted`, `C49_pages_order_refuted` |
| C50 | A range read returns the rest of the object | partial | `C50_rs_range`, `C50_copy_range_partial`, `C50_copy_range_refuted` |
| C51 | Waiting for a group of workers reports their failures | partial | `C51_nil_means_done`, `C51_error_genuine`, `C51_wait_ends`, `C51_nil_means_success_partial`, `C51_lost_error_refuted` |
| C52 | An object is read with the layout it was stored with | partial | `C52_same_block_partial`, `C52_block_change_refuted` |
| C53 | Starting a server never changes the stored credential | partial | `C53_init_keeps_partial`, `C53_init_creates_partial`, `C53_init_refuted` |
| C54 | The bucket decides the storage layout | proved | `C54_bucket_decides` |
| C55 | After a move the metadata knows where the object is | partial | `C55_locations_updated_partial`, `C55_failures_below_half`, `C55_locations_updated_refuted` |
| C56 | Reads answer the current data | partial | `C56_reads_current_partial`, `C56_own_write_refuted`, `C56_late_fill_refuted`, `C56_replicated_refuted`, `C56_moved_refuted`, `C56_removed_refuted`, `C56_same_text_refuted`, `C56_restored_refuted` |
| C57 | A page of versions does not depend on what is cached | partial | `C57_page_partial`, `C57_cache_fresh_partial`, `C57_repeated_refuted`, `C57_order_refuted` |
| C58 | Acknowledged writes and installed snapshots survive restarts of the metadata server | partial | `C58_no_restore_partial`, `C58_restart_partial`, `C58_read_partial`, `C58_late_cleanup_refuted`, `C58_crash_refuted`, `C58_old_data_refuted`, `C58_write_lost_refuted`, `C58_read_failed_refuted`, `C58_refused` |
| C59 | Acknowledged metadata writes are in the replicated log and the servers of a group agree | partial | `C59_checked`, `C59_agreed_partial`, `C59_same_partial`, `C59_log_grows`, `C59_update_version_refuted`, `C59_locate_refuted`, `C59_lead_lost_refuted`, `C59_retry_refuted` |
| C60 | An object answered with a version number reads back as it was sent | partial | `C60_read_back_partial`, `C60_poisoned_refuted`, `C60_compressed_refuted`, `C60_resumable_refuted`, `C60_cut_short`, `C60_number` |
| C61 | A read-only bucket takes no new version | partial | `C61_readonly_partial`, `C61_readonly_refuted` |
| C62 | Different objects have different records | proved | `C62_ids` |
| C63 | What the API server saves in the metadata is read back | partial | `C63_version_partial`, `C63_narrowing_refuted`, `C63_remove`, `C63_bucket_partial`, `C63_bucket_refuted`, `C63_metadata` |
| C64 | The new locations of repaired pieces are recorded | partial | `C64_handler_partial`, `C64_repair_refuted` |
| C65 | Errors keep their kind from the metadata server to the client | partial | `C65_kinds_partial`, `C65_validation_refuted`, `C65_list_refuted`, `C65_rights_refuted`, `C65_told`, `C65_pages` |
| C66 | The HTTP helpers answer with the status in their name | partial | `C66_status_partial`, `C66_unavailable_refuted` |
| C67 | A request passes the API server's checks exactly when it is entitled to | partial | `C67_access`, `C67_closed`, `C67_refusal_partial`, `C67_refusal_refuted` |
| C68 | What the callback server was asked about is what is done | partial | `C68_asked_partial`, `C68_guarded_partial`, `C68_host_refuted`, `C68_target_refuted` |
| C69 | Starting an API server keeps the administrator's credential | partial | `C69_kept_partial`, `C69_nonempty_partial`, `C69_kept_refuted` |
| C70 | New pieces go to the allowed drive with most space | partial | `C70_update`, `C70_choice`, `C70_alone`, `C70_choice_genuine`, `C70_race_refuted`, `C70_weighted_partial`, `C70_weighted_refuted`, `C70_find_partial`, `C70_find_refuted`, `C70_failed_update` |
| C71 | Temporary files do not outlive their upload | partial | `C71_no_leftover_partial`, `C71_cleaned_partial`, `C71_mount_refuted`, `C71_leftover_refuted` |
| C72 | A committed piece is what was uploaded | partial | `C72_commit`, `C72_bytes_partial`, `C72_bytes_refuted`, `C72_empty_refuted`, `C72_new`, `C72_empty` |
| C73 | The counter of stored bytes is the size of the stored files | partial | `C73_counter_partial`, `C73_leave_partial`, `C73_counter_refuted`, `C73_leave_refuted`, `C73_start` |
| C74 | The admin server's pages partition objects and buckets | partial | `C74_buckets_partial`, `C74_objects_partial`, `C74_cover_partial`, `C74_objects_refuted`, `C74_deep_refuted`, `C74_name_refuted` |
| C75 | The total of a listing is the number of matching entries | partial | `C75_buckets_partial`, `C75_objects_partial`, `C75_totals`, `C75_total_refuted` |
| C76 | The discovered servers are the registered ones | partial | `C76_entry_partial`, `C76_calm_partial`, `C76_gap_refuted`, `C76_left_refuted`, `C76_fetch_refuted`, `C76_self_refuted` |
| C77 | Servers are found by their ids | partial | `C77_mapping_partial`, `C77_roles_partial`, `C77_service`, `C77_default_partial`, `C77_panic_refuted`, `C77_cut_refuted`, `C77_master_refuted`, `C77_service_refuted`, `C77_default_refuted` |
| C78 | A running server stays registered | partial | `C78_rest_partial`, `C78_returns_partial`, `C78_grant_refuted`, `C78_put_refuted` |
| C79 | A metadata server is registered under its role only | partial | `C79_one_partial`, `C79_registered_partial`, `C79_both_refuted`, `C79_order_refuted`, `C79_lease_refuted` |
| C80 | Malformed requests are refused | partial | `C80_exact_partial`, `C80_rules`, `C80_accepted_partial`, `C80_body_partial`, `C80_version_refuted`, `C80_compress_refuted`, `C80_index_refuted`, `C80_interface`, `C80_range`, `C80_patch_range` |
| C81 | Parameters come from their declared places | partial | `C81_places_partial`, `C81_one`, `C81_target_partial`, `C81_granted_partial`, `C81_name_refuted`, `C81_bucket_refuted`, `C81_interface_partial` |
| C82 | Slot interval queries are exact | proved | `C06_range_query_exact`, `C06_valid_range_sound` |
| C83 | A slot has one owner in every accepted table | proved | `C07_single_owner` |
| C84 | At most one slot migration at a time | proved | `C08_one_at_a_time`, `C08_second_refused` |
| C85 | The slot table changes only through requests that found the server idle | proved | `C08_table_checked`, `C08_table_changes`, `C08_table_refused` |
| C86 | Wildcard patterns match the glob language | proved | `C10_wildcard_exact` |
| C87 | A new version with a fresh id is stored | proved | `C16_fresh_id_accepted` |
| C88 | Find-by-hash misses nothing and invents nothing | proved | `C17_find_complete`, `C17_find_stored` |
| C89 | Batching of the replicated log does not matter | proved | `C20_batches_agree` |
| C90 | Without versioning only the newest version remains | proved | `C31_keep_one`, `C31_put_exact` |
| C91 | Equal content and layout get equal dedup keys | proved | `C33_dedup_complete` |
| C92 | Reported locations are right | proved | `C34_answer`, `C34_sound`, `C34_live` |
| C93 | Waiting for workers ends, and success means all are done | proved | `C51_nil_means_done`, `C51_error_genuine`, `C51_wait_ends` |
| C94 | The checks let writes through on the leader only | proved | `C59_checked`, `C59_log_grows` |
| C95 | Versions and metadata are removed and created as asked | proved | `C63_remove`, `C63_metadata` |
| C96 | Access is granted exactly to the entitled | proved | `C67_access`, `C67_closed` |
| C97 | The list of drives and the choice from it | proved | `C70_update`, `C70_choice`, `C70_alone`, `C70_choice_genuine` |
| C98 | A commit stores the file that arrived | proved | `C72_commit` |
| C99 | The overview counts every object and bucket once | proved | `C75_totals` |
| C100 | Accepted requests obey the rules of their handler | proved | `C80_rules`, `C80_interface`, `C80_range`, `C80_patch_range` |
| C101 | Pages are blocks of the listing | proved | `C12_page_exact`, `C12_pages_cover` |
| C102 | Bytes written with padding are read back | proved | `C13_limited_read_exact`, `C13_padded_write`, `C13_write_read_identity` |
| C103 | Range reads of erasure-coded objects return the rest | proved | `C50_rs_range` |
| C104 | The collector keeps the measurements | proved | `C104_calls`, `C104_flush`, `C104_window`, `C104_bounded` |
| C105 | Closing saves everything; memory is bounded | partial | `C105_close_partial`, `C105_close_refuted`, `C105_bound_refuted`, `C105_within_refuted` |
| C106 | The local store returns and counts what was put | partial | `C106_get_partial`, `C106_size_partial`, `C106_all_partial`, `C106_all_refuted`, `C106_all_wrong_refuted`, `C106_dot_refuted`, `C106_between_refuted`, `C106_empty_refuted` |
| C107 | Clearing removes exactly what is named | partial | `C107_both_partial`, `C107_kind_refuted`, `C107_action_refuted`, `C107_exact_refuted`, `C107_prefix_refuted` |
| C108 | Sums and averages | partial | `C108_sum_partial`, `C108_average_partial`, `C108_store_partial`, `C108_overflow_refuted`, `C108_dot_refuted`, `C108_all_refuted` |
| C109 | The shared store keeps what is put | partial | `C109_stored_partial`, `C109_zero_refuted`, `C109_panic_refuted`, `C109_crash_refuted`, `C109_lock_refuted`, `C109_stuck_refuted`, `C109_once_refuted`, `C109_pile_refuted`, `C109_clear_refuted`, `C109_keeps_refuted`, `C109_overwritten_refuted` |
| C110 | The shared store stays within its size | partial | `C110_within_partial`, `C110_counted_partial`, `C110_size_refuted`, `C110_bounded_refuted`, `C110_remove_refuted`, `C110_oldest_refuted`, `C110_lock_refuted`, `C110_exclusive` |
| C111 | HEAD tells whether a data server has an object | proved | `C35_head` |
| C112 | Both servers check before slots move | proved | `C07_checked` |
| C113 | A compressed piece reads back whole | proved | `C113_whole_read`, `C113_padded`, `C113_repeated`, `C113_block_size`, `C113_no_size` |
| C114 | A range read of a compressed piece gives the rest of it | partial | `C114_start_partial`, `C114_nothing_refuted`, `C114_error_refuted`, `C114_stream_refuted` |
| C115 | An answer with status 200 carries what was asked for | partial | `C115_checksum`, `C115_damage_partial`, `C115_message_refuted`, `C115_unfinished_refuted`, `C115_parallel_refuted`, `C115_truncated`, `C115_unknown` |
| C116 | Seek moves the reading position as io.Seeker says | partial | `C116_fresh_partial`, `C116_current_partial`, `C116_read_seek_read`, `C116_failure`, `C116_start_refuted`, `C116_told_refuted`, `C116_refused`, `C116_in_turn` |
| C117 | A panic stays within the request or worker it happens in | partial | `C117_http_partial`, `C117_runs_iff`, `C117_gin`, `C117_recover_refuted`, `C117_goroutine_refuted`, `C117_interceptor_refuted`, `C117_error_refuted`, `C117_refuted`, `C117_told`, `C117_counted` |
| C118 | No map is accessed while another goroutine writes to it | partial | `C118_locked`, `C118_readers`, `C118_owner`, `C118_list_partial`, `C118_set_partial`, `C118_load_partial`, `C118_pool_partial`, `C118_selector_partial`, `C118_stat_partial`, `C118_pool_refuted`, `C118_selector_refuted`, `C118_combine_refuted`, `C118_services_refuted`, `C118_contains_refuted`, `C118_stat_refuted` |
| C119 | One connection is made per address | proved | `C119_one`, `C119_kept`, `C119_progress` |
| C120 | The series of a server are its last 59 reports | partial | `C120_series_exact`, `C120_series_partial`, `C120_bounded`, `C120_window`, `C120_gap_refuted`, `C120_closed_refuted`, `C120_shared_refuted` |
| C121 | Reports and faults of etcd do not end the admin server | partial | `C121_alive_partial`, `C121_garbled`, `C121_ended`, `C121_fetch_refuted`, `C121_incomplete_refuted` |
| C122 | Pages of measurements show what was asked for | partial | `C122_usage`, `C122_usage_cpu`, `C122_overview_partial`, `C122_unreadable_refuted`, `C122_overview_refuted`, `C122_kinds`, `C122_no_kind` |
| C123 | The list of servers shows each registered server with its report | partial | `C123_servers`, `C123_memory`, `C123_memory_whole`, `C123_garbled_refuted` |
| C124 | A request is about the object that its path names | partial | `C124_name_exact`, `C124_name_partial`, `C124_name_only`, `C124_reachable`, `C124_two_refuted`, `C124_one_refuted`, `C124_slash_refuted` |
| C125 | The admin server acts on the object or bucket it was asked for | partial | `C125_upload_exact`, `C125_upload_partial`, `C125_download_partial`, `C125_again_partial`, `C125_bucket_partial`, `C125_download_error`, `C125_upload_refuted`, `C125_download_query_refuted`, `C125_download_hash_refuted`, `C125_download_percent_refuted`, `C125_again_refuted`, `C125_bucket_refuted`, `C125_control` |
| C126 | Tokens of uploads survive the way through addresses | proved | `C126_token` |
| C127 | Pages of the metadata server read names right and direct elsewhere right | partial | `C127_name_partial`, `C127_location_partial`, `C127_plus_refuted`, `C127_location_refuted` |
| C128 | A download answered with success is the whole object | partial | `C128_exact`, `C128_whole_partial`, `C128_range_partial`, `C128_refused_refuted`, `C128_cut_refuted`, `C128_disk_refuted`, `C128_at_once_refuted`, `C128_known` |
| C129 | Downloads of erasure-coded objects survive servers that fail meanwhile | partial | `C129_boundary_partial`, `C129_unchecked`, `C129_crash_refuted`, `C129_closed_refuted`, `C129_disk_refuted`, `C129_retry_refuted` |
| C130 | Downloads through the admin server are what the API server sent | partial | `C130_passed_on_partial`, `C130_cut_refuted`, `C130_other_success_refuted` |
| C131 | A request to the admin server acts with the credential it carries itself | proved | `C131_own_credential`, `C131_alone` |
| C132 | Sessions of the admin server begin with a login and end with a logout | partial | `C132_header_partial`, `C132_login_refuted`, `C132_logout_refuted` |
| C133 | Nothing is changed or told through the admin server without a valid credential | partial | `C133_guarded`, `C133_changes_guarded`, `C133_api_partial`, `C133_commands_refuted`, `C133_migration_refuted`, `C133_config_refuted` |
| C134 | The answer of the admin server tells what became of the request | partial | `C134_operations`, `C134_no_api`, `C134_commands_partial`, `C134_migration`, `C134_leave_refuted`, `C134_config` |
| C135 | Membership commands change exactly the group of the leader asked | partial | `C135_add`, `C135_add_stays`, `C135_remove`, `C135_remove_failed`, `C135_leaders_only`, `C135_sound`, `C135_peers`, `C135_half_refuted` |
| C136 | The node list in the configuration of a leader follows its group | partial | `C136_remove_partial`, `C136_add_refuted`, `C136_first_refuted` |
| C137 | A server that joins a group belongs to that group and to no other | partial | `C137_joins`, `C137_again`, `C137_refused`, `C137_home`, `C137_restart`, `C137_both_refuted`, `C137_slots_refuted`, `C137_failed_refuted`, `C137_overwrites_refuted` |
| C138 | A server that leaves its group is out of it | partial | `C138_leader`, `C138_last`, `C138_follower`, `C138_failed`, `C138_forgets_refuted` |
| C139 | A group is formed of the servers given, or of the server itself | partial | `C139_given`, `C139_nodes`, `C139_start`, `C139_alone_refuted`, `C139_skip_refuted`, `C139_env_refuted` |
| C140 | Requests in flight are finished before a server ends | partial | `C140_waits_partial`, `C140_never_fails_partial`, `C140_stops`, `C140_no_new`, `C140_hurry_refuted`, `C140_closed_refuted`, `C140_timer_refuted` |
| C141 | The slots of a group survive stops, crashes and elections | partial | `C141_kept_partial`, `C141_same_partial`, `C141_notes`, `C141_other_refuted`, `C141_panic_refuted`, `C141_leads` |
| C142 | A data server that has left can join again | partial | `C142_turns`, `C142_effect`, `C142_rejoin_refuted` |
| C143 | Migrating buckets moves the buckets in the slots and nothing else | partial | `C143_pinned_partial`, `C143_few_partial`, `C143_lost_refuted`, `C143_dies_refuted` |
| C144 | Finding by hash answers the versions there are | partial | `C144_pinned_partial`, `C144_one_partial`, `C144_panics_refuted` |
| C145 | A size written to a configuration is read as the same size | partial | `C145_read`, `C145_same_partial`, `C145_again`, `C145_rounded_refuted`, `C145_zero_refuted` |
| C146 | The page of the configuration shows everything but secrets | partial | `C146_hidden`, `C146_shown_partial`, `C146_default_refuted` |
| C147 | A server started again is the same server | partial | `C147_same_partial`, `C147_data_partial`, `C147_emptied_refuted`, `C147_unwritten_refuted`, `C147_shared_refuted`, `C147_data_refuted`, `C147_settings` |
| C148 | A cache holds no more than configured | partial | `C148_limited_partial`, `C148_small_refuted` |
| C149 | A metadata request reaches a server that answers for its name | partial | `C149_read`, `C149_any`, `C149_write`, `C149_no_slot`, `C149_no_tables`, `C149_served_partial`, `C149_write_served_partial`, `C149_election_refuted`, `C149_unregistered_refuted`, `C149_gone`, `C149_address`, `C149_peers` |
| C150 | A read of metadata sees the writes acknowledged before | partial | `C150_past`, `C150_current_partial`, `C150_lagging_refuted`, `C150_backwards_refuted` |
| C151 | The metadata and the version of one answer belong together | partial | `C151_together_partial`, `C151_one_second`, `C151_split_refuted` |
| C152 | A command line asks the server for what it says, or for nothing | partial | `C152_add`, `C152_bootstrap`, `C152_migrate`, `C152_others`, `C152_nothing`, `C152_bootstrap_malformed`, `C152_malformed_refuted`, `C152_index_refuted`, `C152_demote_refuted` |
| C153 | How a command ends tells whether it was done | partial | `C153_no_panic`, `C153_status_refuted` |
| C154 | A data server told to leave has moved everything, or can be told again | partial | `C154_answer`, `C154_kept`, `C154_left_partial`, `C154_join`, `C154_short_refuted`, `C154_again_refuted`, `C154_empty_refuted`, `C154_join_refuted`, `C154_join_answer` |
| C155 | What a data server stores lies in its storage directory, one file per name | partial | `C155_clean`, `C155_child_partial`, `C155_distinct`, `C155_found`, `C155_put_only_partial`, `C155_delete_only_partial`, `C155_receive_only_partial`, `C155_dots_refuted`, `C155_migration_refuted`, `C155_received`, `C155_appended` |
| C156 | Unfinished uploads are apart from objects | partial | `C156_apart_partial`, `C156_read_refuted`, `C156_delete_refuted`, `C156_mark_refuted` |
| C157 | A data server that takes over files survives it | partial | `C157_finish`, `C157_panic`, `C157_survives_partial`, `C157_leave_refuted` |
| C158 | space-first writes to the servers with the most free space | partial | `C158_least`, `C158_cached`, `C158_joined_refuted`, `C158_free_refuted` |
| C159 | io-first writes to the servers with the lightest load | partial | `C159_least_partial`, `C159_wrap_refuted`, `C159_missing_refuted` |
| C160 | The report of a server tells its disks | partial | `C160_average_partial`, `C160_info`, `C160_info_sane`, `C160_report`, `C160_times_refuted`, `C160_none_refuted` |
| C161 | Reports are of servers that run | partial | `C161_leased_partial`, `C161_present`, `C161_stopped`, `C161_forever_refuted` |
| C162 | A page of the metadata server that tells success did what was asked | partial | `C162_failed`, `C162_reads`, `C162_find`, `C162_created`, `C162_updated`, `C162_deleted`, `C162_version`, `C162_exists_refuted`, `C162_unread_refuted` |
| C163 | A version is read, changed and removed over HTTP under its own number only | partial | `C163_get`, `C163_delete`, `C163_put`, `C163_shown`, `C163_missing`, `C163_text_refuted`, `C163_negative_refuted`, `C163_latest` |
| C164 | A record is kept under the id of the object it names | partial | `C164_named_partial`, `C164_post_refuted`, `C164_put_refuted`, `C164_bucket`, `C164_buckets` |
| C165 | A malformed request to the metadata server is answered with 400 | partial | `C165_rules`, `C165_page`, `C165_list`, `C165_json_refuted`, `C165_query_refuted`, `C165_negative_refuted`, `C165_size_refuted`, `C165_none_refuted` |
| C166 | A token continues only the upload it was given out for | partial | `C166_saved`, `C166_issued_partial`, `C166_forged_refuted` |
| C167 | Only the servers of an upload are asked for a client | partial | `C167_patch`, `C167_head`, `C167_issued_partial`, `C167_any_refuted` |
| C168 | A request with a token is answered and the server goes on | partial | `C168_head`, `C168_well_made_partial`, `C168_issued`, `C168_malformed`, `C168_endless`, `C168_pieces_refuted`, `C168_address_refuted`, `C168_endless_refuted` |
| C169 | A record written and read back is the same record | proved | `C169_extra`, `C169_metadata`, `C169_version`, `C169_bucket`, `C169_raft_data`, `C169_slot_info`, `C169_credential`, `C169_disk_info`, `C169_io_stats`, `C169_mem_status`, `C169_cpu_stat`, `C169_system_info`, `C169_extra_one`, `C169_metadata_one`, `C169_version_one`, `C169_bucket_one`, `C169_raft_data_one`, `C169_slot_info_one`, `C169_credential_one`, `C169_disk_info_one`, `C169_io_stats_one`, `C169_mem_status_one`, `C169_cpu_stat_one`, `C169_system_info_one`, `C169_codec`, `C169_versions` |
| C170 | Records are read by the names of their fields | proved | `C170_extra`, `C170_metadata`, `C170_version`, `C170_bucket`, `C170_raft_data`, `C170_slot_info`, `C170_credential`, `C170_disk_info`, `C170_io_stats`, `C170_mem_status`, `C170_cpu_stat`, `C170_system_info`, `C170_written`, `C170_order`, `C170_unknown` |
| C171 | Bytes that are no record are refused cheaply | partial | `C171_extra_cut`, `C171_metadata_cut`, `C171_version_cut`, `C171_bucket_cut`, `C171_raft_data_cut`, `C171_slot_info_cut`, `C171_credential_cut`, `C171_disk_info_cut`, `C171_io_stats_cut`, `C171_mem_status_cut`, `C171_cpu_stat_cut`, `C171_system_info_cut`, `C171_extra_range`, `C171_metadata_range`, `C171_version_range`, `C171_bucket_range`, `C171_raft_data_range`, `C171_slot_info_range`, `C171_credential_range`, `C171_disk_info_range`, `C171_io_stats_range`, `C171_mem_status_range`, `C171_cpu_stat_range`, `C171_system_info_range`, `C171_version_room_partial`, `C171_bucket_room_partial`, `C171_raft_data_room_partial`, `C171_slot_info_room_partial`, `C171_room_refuted` |
| C172 | A metadata server can always be started again, and bring others up to date | partial | `C172_taken_partial`, `C172_kept`, `C172_starts_partial`, `C172_taken_refuted`, `C172_lost_refuted` |
| C173 | After a restart the data is that of the entries applied | partial | `C173_exact_partial`, `C173_snapshot`, `C173_again_partial`, `C173_metadata_partial`, `C173_metadata_refuted` |
| C174 | An upload told as stored is stored whole | partial | `C174_shards_partial`, `C174_copies_partial`, `C174_server`, `C174_copy_server`, `C174_reads_partial`, `C174_gap_refuted`, `C174_copy_refuted` |
| C175 | A failed upload leaves nothing at the data servers | partial | `C175_no_object`, `C175_clean_partial`, `C175_left_refuted` |
| C176 | The answer to an upload tells what was wrong | partial | `C176_stored`, `C176_invalid_partial`, `C176_invalid_refuted` |
| C177 | Requests that store one object at once leave it whole | partial | `C177_rename`, `C177_append_partial`, `C177_parallel_refuted` |
| C178 | Storing that is told as done is done | partial | `C178_rename`, `C178_append_partial`, `C178_early_refuted`, `C178_kept_refuted`, `C178_broken_refuted` |
| C179 | No temporary file outlives its upload | partial | `C179_partial`, `C179_refuted`, `C179_kept_refuted` |
| C180 | Addresses of console pages lead to those pages | partial | `C180_sent`, `C180_page_partial`, `C180_pages`, `C180_decoded_refuted`, `C180_cut_refuted`, `C180_lost_refuted` |
| C181 | The console and the API of the admin server stay apart | proved | `C181_api`, `C181_only`, `C181_files` |
| C182 | Files of the console arrive as they are | partial | `C182_whole`, `C182_index`, `C182_range_partial`, `C182_range_refuted`, `C182_second_refuted`, `C182_other_refuted` |
| C183 | The console works from another origin | partial | `C183_partial`, `C183_reads`, `C183_delete_refuted` |
| C184 | Requests of the console reach what they name | partial | `C184_plain`, `C184_names_partial`, `C184_delete_refuted`, `C184_escaped_refuted`, `C184_bucket_refuted` |
| C185 | A client gets a version only of content that it sent | partial | `C185_stored`, `C185_small_partial`, `C185_refuted`, `C185_resumable_refuted` |
| C186 | Data servers answer what they are asked over etcd | partial | `C186_once`, `C186_answers_partial`, `C186_found_partial`, `C186_stopped_refuted`, `C186_unasked_refuted` |
| C187 | Locating leaves nothing behind in etcd | partial | `C187_clean_partial`, `C187_late_refuted`, `C187_twice_refuted`, `C187_forever_refuted` |
| C188 | Finding by hash is right beside writes | partial | `C188_stored`, `C188_right_partial`, `C188_complete_partial`, `C188_kept_partial`, `C188_alone`, `C188_kept_refuted`, `C188_migrated_refuted`, `C188_right_refuted` |
| C189 | Uploads at once keep the versions promised and no more | partial | `C189_alone`, `C189_newest`, `C189_content`, `C189_source`, `C189_apart`, `C189_enough`, `C189_grows_refuted` |
| C190 | Requests continuing one upload at once store the object that was sent | partial | `C190_apart_partial`, `C190_answered`, `C190_source`, `C190_stays`, `C190_refused`, `C190_one_row`, `C190_twice_refuted`, `C190_mixed_refuted`, `C190_early_refuted`, `C190_versions_refuted`, `C190_taken_refuted` |
| C191 | Sharing one buffer for shards and cache does not mix up bytes | proved | `C191_reads`, `C191_object`, `C191_repair`, `C191_read_shards` |
| C192 | A download that has ended leaves nobody sending | partial | `C192_copies`, `C192_exact`, `C192_whole_partial`, `C192_small`, `C192_abandoned_refuted`, `C192_late`, `C192_late_refuted`, `C192_direct`, `C192_admin_partial`, `C192_admin_refuted`, `C192_opened`, `C192_stuck_refuted` |
| C193 | An error is mailed once, and the mail says what happened | partial | `C193_which`, `C193_mails`, `C193_only`, `C193_unset`, `C193_addressed`, `C193_says_partial`, `C193_forged_refuted`, `C193_exit_refuted`, `C193_untaken_refuted`, `C193_tells` |
| C194 | A server runs with the settings it is given | partial | `C194_field_partial`, `C194_all_partial`, `C194_env`, `C194_needed`, `C194_variables`, `C194_blank_refuted`, `C194_flags_refuted`, `C194_async_refuted`, `C194_read` |
| C195 | A metadata server of a group starts and keeps to the timeouts given | partial | `C195_runs`, `C195_both_partial`, `C195_short_refuted`, `C195_one_refuted` |
| C196 | Block sizes are raised to whole packets | partial | `C196_least`, `C196_whole_partial`, `C196_copies`, `C196_uneven_refuted` |
| C197 | Lost shards are stored before a block is handed over, if that is asked for | partial | `C197_waits_partial`, `C197_early_refuted`, `C197_async` |
| C198 | A plan to join or leave is made of what the servers store | partial | `C198_once`, `C198_known_partial`, `C198_fault_refuted` |
| C199 | After a join the servers hold fair shares | partial | `C199_moved`, `C199_share`, `C199_joiner_partial`, `C199_joiner_refuted`, `C199_nothing_refuted` |
| C200 | A deleted bucket takes its objects with it | partial | `C200_refused`, `C200_settings`, `C200_stays`, `C200_anew_partial`, `C200_gone_refuted`, `C200_anew_refuted`, `C200_late_refuted` |
| C201 | Bytes are kept as long as a version needs them and no longer | partial | `C201_kept`, `C201_others`, `C201_brought`, `C201_never_refuted`, `C201_heap_refuted` |

### Notes on what is proved, restricted and refuted

* **C01** for every sorting function that returns an ordered permutation
* **C02** iff characterisation; slots have no upper bound check in the code (a table may name slots above 16384)
* **C05** slot sets unite exactly; the owner of merged neighbouring ranges is not kept (finding, C05_combine_owner_refuted)
* **C06** a range spanning two adjacent ranges of one owner is reported as not owned (finding)
* **C07** Proved for all accepted tables, slot sets and faults before the sender gives up its slots, when both servers see the current table. Refuted: the deferred cancel races with the end of the stream; the prepare timer, a crash of the sender or a failing write of the receiver leave slots without owner; the table cached for five minutes allows moving slots twice, giving two owners and a table nobody accepts.
* **C08** One migration at a time is proved for every schedule. Table changes and return to normal are proved for calls that do not overlap. Refuted for overlapping calls: Save checks then writes; an earlier finish clears the peer of the next migration, which then never ends; the second finish of AutoMigrate, or a late prepare timer, ends the next migration.
* **C09** accepted texts and results characterised exactly; products above 2^64 wrap around instead of being rejected (finding: 16777216TB = 0)
* **C10** full match exact; the simple variant also accepts a text that ends before an inner '?' (finding)
* **C11** records' own codec is a parameter; decoder panics on truncated input (finding)
* **C12** for page >= 1 and size >= 1; negative page numbers are not refused (finding)
* **C13** for page-multiple buffers (those of the callers); other buffers may panic (finding)
* **C14** Proved over all histories (log entries, lookups, location changes; migrated numbers in 1..B, B + length < 2^63) between removals of the object's metadata or of all its versions; refuted when all versions are removed while the metadata stays.
* **C15** Simulation with a plain map; whether a unique id counts as taken is left to C16.
* **C16** Stored ids are refused in migration-free histories and fresh ids accepted in all; the id of a removed version stays taken and the id of a migrated version is not recognised (both refuted by witnesses).
* **C17** Completeness for all histories; exactness for histories that remove no object; refuted after an object is removed and created again.
* **C18** First/last follow the byte order of decimal texts (all histories); equal to smallest/largest when all numbers have the same digit count; refuted with ten versions.
* **C20** All partitions into batches agree for entries as written by the service, nil, foreign and truncated ones; Apply and ApplyBatch differ on migrated versions without unique id, and an entry lacking a field takes it from its predecessor.
* **C21** Replays are absorbed for logs without object removals, migrations and missed targets; refuted otherwise.
* **C22** for any erasure code that satisfies the MDS law; losses of up to the parity number of shards
* **C23** stored shards equal the sent shards when the block per shard is a multiple of 4096; refuted for other block sizes, which the configuration code produces
* **C24** the encoder terminates when its block is not empty; refuted for small objects whose block size is computed as 0
* **C26** a repair after a read to the end restores the shards; refuted for reads that stop early, out-of-order writers and range reads
* **C27** holds for single-request uploads when the wait loses no error and located objects are complete; refuted for resumable uploads, which save the metadata first, and when the wait loses a commit error
* **C28** holds for HEAD with 4096-aligned blocks and no server failures; refuted for the offset of the 206 answer, for other block sizes and after the failure of one data server
* **C29** for all interleavings of concurrent calls; a write that passed its check before the commit can still arrive after it
* **C30** All three strategies with arbitrary random numbers / space maps / io maps; distinct server addresses.
* **C31** Proved against the metadata store model: without versioning (or limit one) the newest remains for every number of sequential uploads; with a limit, up to ten uploads, or while all numbers have equal digit counts. Refuted: the eleventh upload with limit 2 removes version 10 instead of 9; switching versioning off; concurrent uploads.
* **C33** Proved up to SHA-256 collisions for digests of equal length or strategies 0..9; refuted in general: digest and strategy are concatenated without separator.
* **C34** Every address reported is right; complete when no shard lies on two servers; refuted otherwise: two answers for one shard count for two shards.
* **C35** Proved for histories of whole reads without failed, overlapping or concurrent uploads; each dropped condition has a counterexample: a range read fills the whole-object cache, a cached object ignores the range, a failed upload is kept as the object, a read during an upload, two parallel uploads, a deleted object served from the cache, and a late index update.
* **C36** The history theorems carry the conditions the text encoding needs; without them GetLast fails for a single path, Remove leaves an empty path or cuts a path containing the removed one, and a percent sign in a path is lost.
* **C37** Proved for capacities summing below 2^53 bytes, where the float64 average is shown exact; beyond, rounding makes the quota too small (counterexample). A joining server's peers overshoot their quota by at most one file.
* **C38** Proved for all failures, crash points and interleavings under conditions each of which has a counterexample when dropped: receiver leftovers are beginnings of the object, no second transfer of the object inside the look-then-open window, no upload still running. An empty file is sent forever.
* **C39** Proved for gRPC and HTTP writes on a server whose table is current (the owner's raft followers also serve). Refuted: HTTP reads are never checked; after a migration both servers decide by their cached table for up to five minutes.
* **C40** Proved for all stores, slot sets and failure patterns when the receiver holds none of the moved objects (except the remains of a failed attempt) and no index entry of their unique ids. Refuted in general: moving an object away and back loses all its versions; times and number counters do not move; after a failure objects already sent are gone from the server that still owns the slot; changes between attempts or during the migration are lost; a stale cached bucket is sent. Without any condition on the receiver: what leaves the sender or is reported as moved is on the receiver, except versions whose unique id another version has.
* **C41** suffix ranges are misread (finding)
* **C42** start or end equal to minus the length, and empty lists, panic (finding)
* **C43** a lasting source error loops forever (finding)
* **C44** a file without padding is overwritten from its start (finding)
* **C48** The entries are exact for every store, prefix and limit; the total is right only without prefix or when nothing is cut off.
* **C49** Each page is right when all numbers have the same digit count, but it has one entry too many, so pages overlap; with mixed digit counts order and coverage fail.
* **C50** full for erasure coding; for copies the bytes up to the end of the object are right, but the stream goes on into the padding of the file
* **C51** an error can be lost when both channels are ready
* **C52** The block size is taken from the current configuration, not from the version.
* **C53** Refuted when the first etcd read fails: the credential is overwritten, possibly with an empty one.
* **C55** Fewer than half of the groups may fail and the move is still acknowledged, so the group holding the object may keep the old location.
* **C56** Proved for every interleaving in which a step changes only things no background update is busy with and silent changes are of things not cached, object ids being no other id followed by dot and number. The code violates the unrestricted claim in seven ways, each with a concrete run: own acknowledged write not seen, late fill with old data, entries of the replicated log and moved locations and restored snapshots never told to the cache, the tenth version of a removed object, two records cached under one text.
* **C57** Proved when stored numbers and the page have the same number of digits. Otherwise the page depends on the cache: repeated entries, different order.
* **C58** Proved at every moment for runs without an installed snapshot, and with snapshots when no write holds the database at a switch, stop follows every clean-up and the process ends after stop. Refuted otherwise: a late clean-up removes the live file, a killed process leaves the data under another name (the next start finds nothing or the data from before the snapshot), a write acknowledged during a switch is lost, a read fails.
* **C59** Agreement holds when all writes use guarded methods and the leader flag does not drop between the middleware check and the service. Refuted in general: gRPC UpdateVersion is not in the guarded list, changes of locations are never logged, a flag drop in between leads to a local acknowledged write, and a save that failed by timeout but was committed is stored twice when repeated.
* **C60** Proved for all interleavings when the checksum is on, or when all clients announce the truth, with SHA-256 collision-free on the texts of the run and resumable uploads not compressed. Refuted without the checksum (a false announcement poisons a later deduplicated upload), for compressed resumable uploads (read back compressed), and with the checksum on every resumable upload is refused.
* **C61** Proved for requests that read the bucket while it is read-only; a resumable upload begun before is finished after (the bucket is not checked again).
* **C62** Object identifiers are injective for names without slash, which the routes guarantee.
* **C63** Proved for numbers that fit the message types (int8, int32) and version numbers below 2^31, for all histories; removing and adding metadata without restriction. Refuted beyond int32 (the number of shards is cut silently) and for creating a bucket that exists with other settings (answered with success, old settings stay).
* **C64** The handler records the change when the request names the version (proved for all databases); the API server never names it, so every such update is refused with 400 (proved for all inputs).
* **C65** Proved: errors never become successes; 400, 404, failed validation and internal errors keep their kind through the two mappings. Refuted for versions that fail validation (always 500), for listing versions of a missing object (always 500) and for 401/403/409 and redirects.
* **C66** Proved for all helpers but ServiceUnavailable, which answers 200.
* **C67** Who passes is characterised for all configurations and requests. That a refusal reads as a failure is proved for callback servers refusing with 4xx or 5xx, and refuted for 204 (the client reads a success).
* **C68** Proved for the object and metadata routes when the host has no dot. Refuted for hosts with a dot (the server is asked about the text before it, the handler takes the header Bucket), for HEAD and PATCH of a resumable upload (target in the token) and for the bucket routes (target in the path).
* **C69** Proved when etcd answers the reads at start. Refuted when a read fails: the configured credential, even the empty one, replaces the stored one, and an empty user and password pass.
* **C70** Proved: the list after an update, the choice of one request at a time (also as steps of the sort), and that every choice in any interleaving is a drive of the list. Refuted: two requests at the same time lose a drive from the list; the weighted balancer (not in use by default) takes a full drive for ever; a drive that answers with an error hides a file.
* **C71** Proved for servers whose only mount point is the one the relative path leads to and without restarts. Refuted: the cleaner ignores the mount point of the upload, so elsewhere the file of a deleted, expired or compressed upload stays whatever happens; a restart forgets the uploads and keeps their files.
* **C72** Proved: the file is the padded bodies, what HEAD tells and what a commit stores, in every history. That it is the bodies padded at the end holds when all but the last fill whole pages. Refuted: otherwise zeros in between; a body that breaks off stays and its repetition follows it; a compressed commit of an empty file fails with 500 and succeeds with 200 when repeated.
* **C73** Proved for uncompressed pieces whose goroutine runs before the next request, names received once, no restart; there a leaving server moves all. Refuted for compressed uploads and commits, late goroutines, repeated receipts and a start; a compressed commit makes a leaving server keep a file.
* **C74** Proved for any number of servers up to the first 10000 entries: buckets always, objects when buckets and names have only characters that sort alike in both orders. Refuted: Metadata.ID uses the bucket as a format of Sprintf, so buckets such as b and b-c sort differently from the keys and a page repeats one object and no page shows the other; pages ending after 10000 fail; a name without a bucket is compared with the bucket's name.
* **C75** Proved: the totals of the overview, and of pages without filter (for objects not after the last page). Refuted: with a filter the total is what was fetched; after the last page of objects it is 0.
* **C76** Proved: an entry is right unless a change of it was missed and none delivered since; in particular with no change between fetch and watch and no cancelled watch. Refuted: the watch starts without a revision and after a cancellation nothing is fetched again, so a missed removal or addition stays wrong until that entry changes again; a failed fetch is never repeated; a server's own entry has another key and is counted twice.
* **C77** Proved for readable ids and any order of iteration. Refuted: an underscore in group or name panics with a server without a role; ids with underscores are cut, or lost among the masters; a service lists those of services whose names begin with its own; default ids leave out dots and can collide.
* **C78** Proved when requests for leases and puts do not fail. Refuted: after one failed request for a lease the loop waits for its own lock for ever and Lease blocks; a failed put is not repeated while the lease lives.
* **C79** Proved for calls that do not overlap, after the first lease. Refuted: interleavings that leave both entries, or the role of an earlier change; a change before the first lease leaves an entry that never ends.
* **C80** Proved without stray keys for nine of the thirteen structures; the rules of the tags hold of everything accepted, without restriction. Refuted: BindAll keeps only the last binding's error, so GET metadata takes an unreadable version for 0, POST big and the data server's GET take an unreadable compress for false, UpdateLocates takes an unreadable index for 0.
* **C81** Proved for requests without stray keys. Refuted: gin binds a field without a tag for a source from the key of its Go name, so ?Name= or ?Bucket= replaces the name in the path or the bucket in the header after the callback server was asked.
* **C82** Also: an interval reported as owned is owned in all its slots. (the part of C06 that holds without restriction)
* **C83** For every sorting of the servers. (the part of C07 that holds without restriction)
* **C84** An invariant over all schedules. (the part of C08 that holds without restriction)
* **C85** Over all schedules. (the part of C08 that holds without restriction)
* **C86** The full matcher against an inductive definition. (the part of C10 that holds without restriction)
* **C87** After every history. (the part of C16 that holds without restriction)
* **C88** After every history; a found version may have another hash, see C17. (the part of C17 that holds without restriction)
* **C89** Also with empty, foreign and truncated entries. (the part of C20 that holds without restriction)
* **C90** And one upload after any history changes nothing but adding a version and dropping at most the reported first one. (the part of C31 that holds without restriction)
* **C91** For any digest function. (the part of C33 that holds without restriction)
* **C92** Hashes and keys without '.' and '#'. (the part of C34 that holds without restriction)
* **C93** Over all schedules. (the part of C51 that holds without restriction)
* **C94** Over all runs. (the part of C59 that holds without restriction)
* **C95** Through the gRPC client and server. (the part of C63 that holds without restriction)
* **C96** An equivalence. (the part of C67 that holds without restriction)
* **C97** The choice also as steps of the sort. (the part of C70 that holds without restriction)
* **C98** After every history. (the part of C72 that holds without restriction)
* **C99** For any order of iteration. (the part of C75 that holds without restriction)
* **C100** For every structure, not only those in use. (the part of C80 that holds without restriction)
* **C101** For numbers and sizes from 1. (the part of C12 that holds without restriction)
* **C102** For page-multiple buffers, which the callers use. (the part of C13 that holds without restriction)
* **C103** For any code that recovers from enough shards. (the part of C50 that holds without restriction)
* **C105** Saving on Close is proved when no goroutine of PutAsync is waiting. Refuted: a measurement whose goroutine has not run when the collector is closed is lost; while the store refuses, memory grows beyond every bound.
* **C106** Proved for kinds and actions without dots of which none begins another, such as those in use. Refuted: Get of everything gives keys for actions, so no measurement in it was ever put; a dot in an action hides its measurements; an action that goes on with a dash hides those of the shorter one; a store without measurements answers with an error.
* **C107** Proved for both names together and for everything. Refuted: by kind alone or by action alone Clear fails as soon as there is something to clear (Delete of a nested bucket); a kind that begins another takes its measurements along from one of the two copies.
* **C108** Proved for names without dots and sums within int64. Refuted: two positive costs with a negative average; names with dots are mixed up; the local store's sum of everything has rows for no action there is.
* **C109** Proved: a put that ends well has stored its measurement under its key. Refuted: the lock of checkSize has the prefix of the measurements, so once one is stored no later put of any API server gets the lock, its collector saves nothing more, goroutines pile up and Close does not return; every cost read back is 0 (the text of a duration is read as an integer); two measurements at once panic in the client (Then called twice), and since Recover panics again (C117) the next flush that is due ends the API server; Clear without an action panics; two puts in one millisecond overwrite each other.
* **C110** Proved: one API server at a time checks the size; n API servers store n measurements at most (the lock holds up every further put, C109), so the limit holds for up to maxSize servers; when Size counts every pair, at most two too many stay. Refuted: servers that ask before the first commits store a measurement each, whatever the limit; removeOldKeys removes one key less than asked, the first by name, not the oldest, and the key of the lock before any measurement.
* **C111** That marks and cached bytes can outlive the file is C35's counterexample.
* **C114** Proved for offset 0. Refuted: the data server seeks in the compressed file, so an offset within the piece but past the end of the file is answered with 200 and an empty body, which the API server's stream takes for success; any other offset is an error unless a stream identifier happens to be there.
* **C115** Proved: damage is noticed, what lies before it is read right, and damage in the first block is an error. Refuted: damage after the first block is answered with 200 and the text of the error behind the bytes; a piece still being written is answered with 200 and the blocks so far; two uploads at once mix their blocks.
* **C116** Proved for a fresh stream, and for SeekCurrent as far as the bytes delivered go. Refuted: SeekStart on a stream already read from moves on from where it is; the number returned then is the distance, not the position.
* **C117** Proved for HTTP handlers, which gin recovers, and that a server runs on exactly as long as no gRPC call and no goroutine has panicked. Refuted for the rest: graceful.Recover and DoneGroup.Done log with logger.Panicf, which panics again, so every such panic ends the process and no group is told.
* **C118** Proved: maps only used under one lock, not written, or of one goroutine are safe, which gives the list of a service (but for combine), the set of errors, the first loading of measurements, and lookups alone. Refuted: getConn looks up without the lock; selectors read while another request refreshes; combine writes without the lock; the map of services is read while it is filled; WriteSyncSet.Contains; reports of measurements.
* **C119** The unlocked lookup is taken for atomic here; that it is not is C118_pool_refuted.
* **C120** Proved: what is kept, exactly, in every run, and the claim when nothing is written between the reading and the watch and no two keys end alike. Refuted: reports between the reading and the watch are lost; after a watch is closed the series stay as they are; keys that end alike share a series.
* **C121** Proved without failed readings and incomplete records (unreadable ones are harmless). Refuted: a failed first reading, and a record without processor or memory, end the admin server.
* **C122** Proved: pages show the servers of the kind with their own series; the overview of one server. Refuted: unreadable kinds are taken for the API servers and unknown series for memory; the overview is the series of whichever server comes last.
* **C123** Proved: the list, if there is one, and the shares of memory. Refuted: one unreadable record, even of a server that is not registered, fails the list.
* **C124** Proved: the name seen, exactly; right for elements written as net/url writes paths or without escapes, and only for these. Refuted: one name written in two ways is two objects, two names can be one object, names with slashes are never seen as they are.
* **C125** Proved: uploads are right exactly for names without comma, semicolon and slash; downloads and buckets for names without percent, question mark, hash, slash and control characters. Refuted for the others: uploads are stored under the escaped name, downloads read another object in another version, changes and removals hit another bucket.
* **C127** Proved: names without plus signs; directions for unusually written paths without a query. Refuted: plus signs in an id are read as spaces; directions lose usual paths and all queries.
* **C128** Proved: undisturbed downloads, and refusals of requests with a Range. Refuted: a refused request is answered as an empty object with status 200; a broken connection as the part that came; a failing disk as the part that was read followed by the text of the error.
* **C129** Proved: servers that do not answer or break off between two blocks. Refuted: a connection lost within a block ends the API server; one closed within a block ends the download early with status 200; the error text of a failing disk is taken for the shard; a server that answers late gives its first block in place of a later one.
* **C130** Proved: undisturbed answers. Refuted: a broken download is a success that ends with the text of the error; a success other than 200 loses its content.
* **C131** sessions have no influence at all
* **C132** Proved: requests with an accepted credential in their header are let through at any time. Refuted: the session of a login never lets a request through; a logout leaves the token in the cookie.
* **C133** Proved: without any credential nothing is changed; changes of objects and buckets need a valid one. Refuted: any text is enough to migrate slots and to make servers join and leave; configurations are told without any.
* **C134** Proved for all operations and commands but one. Refuted: a metadata server that refuses to leave its group is reported to have left.
* **C135** Proved but for one point. Refuted: an addition of several voters that is answered as a failure may have added some of them.
* **C136** Proved: a removed server that is not the first on the list is taken off and the rest stays. Refuted for every case: an added server is never written down, the first server is never taken off.
* **C137** Proved: what a reported join does, and that servers stay with the slots of their group. Refuted: the server always stays in the group it was in (its removal is asked of the new leader), it keeps its own slots when etcd has none for the group, a failed join may have happened, and a server that leads meanwhile overwrites the slots of the group.
* **C138** Proved: membership. Refuted: the server keeps group id, nodes and slots of the group, also after a restart.
* **C139** Proved for given servers and well-formed node lists. Refuted: the command without nodes never forms a group with the server in it (the printed configuration is taken for its id), a malformed node makes it fail, and node lists from the environment always make the server panic at start.
* **C140** Proved for API and admin servers while their 15 seconds last. Refuted for metadata and data servers: their Shutdown never waits for the wait group, so running requests are cut off or go on with the database closed, and new ones are taken; the other servers do so when the time is over.
* **C141** Proved for crashes, elections and stops of followers, and for a leader that leads again. Refuted: when a leader stops and another server is elected, the slots are those in the configuration of that server, whatever migrations did; a server that stops while the group has no entry panics.
* **C142** Proved: services start and stop in turns. Refuted: the lifecycle is closed for good by leaving, so the loop ends at once and the server is not registered.
* **C143** Proved if a read transaction stays open, or with at most one write and no growth of the file. Refuted for the code: keys are slices of bolt's memory used after the transaction, so removals can delete a bucket that was not to be moved, without any error, and the process dies when the file is mapped anew.
* **C144** Proved if a read transaction stays open, or with at most one entry of a removed version. Refuted for the code: with two removed versions and another entry, of names of one length, the second removal overwrites the page the keys are in and the request panics.
* **C145** Proved exactly: the nearest number of the largest unit is read, so multiples of the unit stay and a second writing changes nothing. Refuted for all other sizes (1.5 MB is read as 2 MB) and for 0, which panics. Sizes up to 2^53.
* **C146** Secrets never show. All the rest shows if no size is 0. Refuted: with any size 0, such as the default distinct-size of API servers, the page is an error.
* **C147** Proved for a metadata server that wrote its file, and for a data server with an id or an address configured. Refuted: ending while writing leaves an empty file and no start succeeds; before the first writing the id follows the address; two servers with one file get one id; data servers write nothing and lose their directories at another address.
* **C148** Proved from 1 MB on. Refuted below: bigcache takes 0 MB for no limit.
* **C149** The address is always of the right group. It is answered while the group, its tables and etcd agree. Refuted: until etcd names a newly elected leader writes fail and reads are turned away by all but the old leader as bad requests; if the named leader is not registered no read is possible.
* **C150** Each answer was true at some point of the log, and it is current if no server lags. Refuted: any server of the group may answer however far it lags, and a later read may see less.
* **C151** Both are of one server if the reads fall into one second, since the generator is seeded with the second. Refuted otherwise: an object whose metadata and version were both acknowledged is answered with 404.
* **C152** Well-formed lines ask for exactly what they say, unknown or short ones for nothing, and no malformed service forms a group. Refuted: add_voter with one malformed part fails after the others were added; the index has no effect at all; demote_voter removes the server.
* **C153** No line panics. Refuted: the status is 0 for every line and every answer.
* **C154** The answer is characterised, no file is lost, and with a counter not below the sizes nothing is left. Refuted: with a counter below, success is answered with files left; after a failed transfer the server can never be told again; an empty server among equals cannot leave; a joined server answers failure if its entry is not discovered yet or nobody is above the average.
* **C155** Holds for names that are elements of a path (not empty, no slash, not '.' or '..'). Refuted: PUT of '.' or '..' answers success and stores nothing; a FileName with slashes over gRPC reaches every file of the machine.
* **C156** Names of pieces are apart from uploads and marks. Refuted for other names: the record and the bytes of an unfinished upload are read and removed as an object, a mark is read as an empty object.
* **C157** Exact condition of success and of the panic; names with a dot never panic. Refuted: the file of an unfinished upload has no dot in its name, is sent by a leaving server and ends every registered server that takes it over.
* **C158** By stored bytes the choice is exact when the last look is over a minute old, and by what was known otherwise. Refuted as stated: stored bytes are not free space, a full small server is preferred; an empty server that joined within the minute comes last.
* **C159** Exact for loads below 2^31-1. Refuted: loads from 2^31 read as negative and come first; a server that cannot read its drives counts as idle.
* **C160** Averages of bytes, counts and loads, and sizes are right. Refuted: times of reading and writing are always 0; without drives the report divides by zero and ends the server.
* **C161** Holds if the first lease comes before the first tick. Refuted otherwise: the report is put without lease and outlives a crash for ever.
* **C162** Any other answer than success changed nothing, and creating, changing, removing do what they say when the object is new or known. Refuted: in a group the creation of a record that exists is answered with 201 and keeps the old one; a change whose body cannot be read is answered with 200 and empties the name.
* **C163** Exact for every number from 1. Refuted for other texts: what is no number reads as the latest version, every negative number removes all versions.
* **C164** Kept by every request whose body agrees with its path. Refuted otherwise: the path is not compared with the body, and a change may rename.
* **C165** Rules, missing values and zero are answered with 400; pages from 1 are as asked, with one version more. Refuted: unreadable JSON and unreadable queries are answered with 500; a negative page reads as the first; negative or huge sizes are 500, -1 an empty list.
* **C166** With a token that was given out the version saved is that of the upload, and only when size and digest fit. Refuted in general: tokens are not signed, so whoever knows one piece at a data server saves a version under any bucket and name with an empty body.
* **C167** Requests go only to the pieces the token names, so with tokens given out only to servers selected. Refuted in general: a token of one's own makes the server ask any address.
* **C168** Always for HEAD, and for PATCH with well-made tokens, which those given out are. Refuted otherwise: fewer pieces than shards or an address that is none panic in a goroutine and end the server; empty blocks never end, and only they do.
* **C169** For the twelve records of the generated code; the library is modelled from the format and the calls, and the bytes behind a record are dropped by DecodeMsgp.
* **C170** Reading is equivalent to a relation between values and bytes stated apart from the readers.
* **C171** Cut records are refused and fields in range for all twelve records; room for strings is bounded by the bytes where reading succeeds. Refuted otherwise: 13 bytes make room for up to 2^32-1 strings before the first is looked at.
* **C172** Proved as long as the database can be read for a snapshot. Refuted: if WriteTo fails reading, Persist returns the nil of sink.Cancel; the library counts a snapshot that is not there and drops entries, and every later start panics.
* **C173** Exact if every start finds a snapshot or an untouched database; without a snapshot the log is applied to its own result, which is harmless for logs of C21 and changes version numbers of objects removed and created again.
* **C174** Proved if the worker groups overlook no error; servers that answered everything hold their pieces in any case. Refuted: WaitUntilError may find its workers finished before it looks at their error, so a block that did not arrive goes unnoticed and the object reads back with other bytes and no error.
* **C175** No piece becomes an object unless Stored or Unavailable is told; refused uploads are cleaned up if servers answer and the last flush succeeds. Refuted: Commit(false) flushes before it removes and gives up if that fails; a failed opening, a failed last flush or a failed commit removes nothing at the other servers.
* **C176** Right bodies are stored by servers that answer, and the answer blames the body exactly when it is wrong if the servers take all blocks. Refuted: with checksums SHA256IO drops the error of the stream, so a failing data server is told as 400 invalid file.
* **C177** Proved for pieces that are renamed; proved for those that are compressed or put whole if no two append at the same time and none breaks off. Refuted: two requests that both see no file append to the same file, both are told success, and it stays wrong for ever.
* **C178** Proved for pieces that are renamed and for appended ones under the same conditions when nobody writes any more. Refuted: the check only looks for a file, so a request during the writing of another or after one that broke off is told success, and no later request repairs the file.
* **C179** Proved if the entry is not removed between the check of a PATCH and its opening of the file. Refuted: a PATCH in between makes the file again after the cleaner ran, and nothing removes it.
* **C180** Proved for all pages the console has and for addresses without & # % +. Refuted: the path is put into the query unescaped, so & cuts it, # loses the parameters too, and + and % are decoded again.
* **C182** Whole files and ranges of all files but config.js are right. Refuted: ranges of config.js are read from its start or refused behind the end of the embedded file, and every file whose name ends in config.js is replaced.
* **C183** Proved for all routes but one. Refuted: DELETE is not among the allowed methods, so no bucket can be removed from another origin.
* **C184** Proved for names without / ? # % and for buckets in queries without & ; + # %. Refuted: names are not escaped; removing bucket a?b or a#b removes bucket a.
* **C185** Everything stored was sent by somebody, and with the checksum on a PUT below DistinctSize is answered only if its body has the announced digest. Refuted: from DistinctSize on, and for resumable uploads without the checksum, an announced digest that is already stored gives a version in a bucket of the client's choice though nothing was sent, so knowing a digest is enough to read an object of another bucket.
* **C186** Answers are right and come at most once always; none is missing while the watch of the server stays open and puts work. Refuted: questions put while a watch is closed are never answered, since it is opened again from then on; a failed put is waited for.
* **C187** Proved for requests that found their object, if no piece lies on two servers. Refuted: answers that come after the deletion, because the request gave up or a piece lies on two servers, make the key anew, and it stays for ever.
* **C188** What is answered was stored when looked at, always. Content, completeness and the keeping of entries are proved when no object is removed and no version comes from another server. Refuted: an object removed and stored again with the same content (or a version migrated back) between a search's miss and its removal of the entry is never found by its content again.
* **C189** Proved for every interleaving: own numbers, own content, the newest stays, at least as many as promised stay. Refuted for every count: with never more than two uploads under way in a bucket that keeps one version, any number of versions piles up, because both read the same first version and later uploads remove only one each.
* **C190** Proved for requests one after another, and for objects of one row whatever overlaps; an answer of 200 always means a version and all files stored. Refuted for overlapping requests: a retry while the first attempt is still served stores every row twice and in orders that differ between servers; a request that finds the size on server 0 stores the others' files before they are complete; two answers of 200 and two versions; a request that is too long deletes the files of an honest one whose version is recorded.
* **C191** Assumes of the library that it refuses rows of unequal shards, leaves those it is given alone and restores to the same length. Repair writers have only slots without reader.
* **C192** Proved for copies, for erasure-coded objects read to the end and for shards within the window. Refuted: closing the stream of an erasure-coded object does not close its readers, so that a client that stops early leaves a sender at every data server; a browser that leaves a download through the admin server leaves all three servers waiting; a repair that cannot begin leaves goroutines and files.
* **C193** Proved: which lines cause a mail, one mail for each while the process lives and the mail server takes them, no other mail, and that the page says the line when it has no < or &. Refuted: a version that is no number is logged as an error with its text, and the page takes the text as markup, so that any caller draws tags into the mails of the operators; a line logged just before the process ends, or refused by the mail server, is never mailed.
* **C194** Proved for files without no, 0 and empty texts; the environment always decides; required settings; keys and variables are distinct. Refuted: a zero value in the file is replaced by the default; copy-async and rewrite-async, and no other flags, cannot be switched off by a file, so repairs of copies are never waited for and their failures not told.
* **C195** Proved: exactly when a server starts; it does with both timeouts given, in order and of 500ms at least. Refuted: with a shorter heartbeat it panics, and with one timeout given that does not fit the default of the other.
* **C196** Proved for copies, and for numbers of shards that divide the packet size; never lowered. Refuted: any number of shards that does not divide the raised block gives a block that is no whole number of packets.
* **C197** Proved for the runs in which all goroutines were started before the waiting begins. Refuted: they are counted by another goroutine, so the waiting can end before the first is started, and failures are lost. With rewrite-async on nothing is told.
* **C198** Proved for servers whose readable drives are not none; each server once and never the server itself, without condition. Refuted: an answer with 500 is read as a server that stores nothing, so a leaving server gives it all.
* **C199** Proved: nothing is lost or doubled; after a join told as done the others hold the share at most, less one file at least if they gave; the server that joined holds the share and a file from each other at most, if none was below the share. Refuted: with servers below the share it is given what they miss too (twice its share); if nobody is above the share, failure is told.
* **C200** Proved: uploads into a deleted bucket are refused without effect and late ones do not bring it back; a bucket made anew has the new settings only; a bucket no upload ever named is empty. Refuted: deleting a bucket changes no answer to any reader, the old objects are in the bucket made anew, and an upload that read the bucket before is stored after it is gone.
* **C201** Proved: the bytes of every version are there whatever was removed, requests about one object or version leave the others, nothing is held that was not uploaded. Refuted: no request ever makes the data servers hold less; any amount can be held while nothing can be read.

## What is not modelled

* Kernel errors of O_DIRECT reads and writes for unaligned buffers; file system failures in general.
* Compression (the `compress` flag is carried, the s2 codec is not).
* Failing data servers during an upload, except where a theorem quantifies over them (loss patterns when reading,
  lost blocks in C28).
* Memory aliasing of Go slices; slices are values. The places where two slices share memory were read by hand
  (selector swap, decoder cache) and do not affect the results modelled.
* gin routing, JSON and msgpack encodings, gRPC transport, raft itself (a committed log is given), bolt's file format.
* Logging, metrics, tracing.

## Trusted base

* The Coq 8.16.1 kernel, including `vm_compute` (used for closed computations in examples and witnesses).
* `Print Assumptions` of every property theorem is printed at build time; the answer everywhere is
  "Closed under the global context". There are no axioms, no admitted proofs, no module functors, and no kernel check
  is switched off.
* Libraries: Coq's standard library and stdpp (finite maps, sorting), the latter only for the metadata store and what
  builds on it. `vcheck` lists seven names of `Coq.ssr.ssrunder.Under_rel` (module type parameters of the ssreflect
  library loaded by stdpp); no theorem depends on them.
* The reading of the Go source: the model is written by hand from /repo; nothing ties it mechanically to the code.
