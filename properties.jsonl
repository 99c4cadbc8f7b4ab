{"id": "C01", "title": "Accepted slot tables give every slot exactly one owner", "statement": "When a slot table (owner -> list of 'a-b' range strings) is accepted, looking up any slot returns the identity of the one owner whose ranges contain the slot, and reports not-found exactly when no owner's range contains it; two different owners never both contain a slot.", "quantifier": "every slot table (any number of owners, ranges, any order of the owners) and every slot number", "why_tests_cant": "the lookup is a binary search over a merged sorted table; correctness depends on every combination of adjacent, gapped, nested and equal-start ranges, which tests only sample", "anchors": ["src/common/hashslot/hash_slot.go:WrapSlots,WrapSlotsToEdges,sortAndValidate,GetSlotIdentify,IsSlotInEdges"]}
{"id": "C02", "title": "Slot tables are rejected exactly when malformed or overlapping", "statement": "A slot table is rejected if and only if it has no owner at all, some range string is malformed or empty (start >= end), or two ranges share a slot; a rejected table never takes effect.", "quantifier": "every slot table", "why_tests_cant": "a validator that only compares neighbours after sorting is right only if no overlapping pair can hide behind a third range; needs all tables", "anchors": ["src/common/hashslot/hash_slot.go:sortAndValidate,wrapSlotsOriginal,formatInt,WrapSlots"]}
{"id": "C03", "title": "Slot ranges survive printing and parsing", "statement": "Printing the slot ranges a server owns (to store or advertise them) and parsing the printed text again gives the same ranges with the same owner.", "quantifier": "every list of ranges with non-negative bounds", "why_tests_cant": "round trip must hold for every number of digits and every list", "anchors": ["src/common/hashslot/hash_slot.go:formatInt,wrapSlotsOriginal", "src/common/hashslot/edge.go:Strings"]}
{"id": "C04", "title": "Removing slots takes away exactly the requested slots", "statement": "After removing a set of ranges from the ranges a server owns, the server owns a slot if and only if it owned it before and it is not in the removed set; the remaining ranges are non-empty, ascending and disjoint, and keep their owner.", "quantifier": "every pair of well-formed range lists and every slot", "why_tests_cant": "the removal loop splits, trims and drops ranges using two alternating buffers; each overlap geometry has to be right, for lists of any length", "anchors": ["src/common/hashslot/hash_slot.go:RemoveEdges"]}
{"id": "C05", "title": "Adding slots gives exactly the union", "statement": "After adding ranges to the ranges a server owns, the server owns a slot if and only if it owned it before or it was added, and the resulting ranges are non-empty, ascending and disjoint.", "quantifier": "every pair of range lists and every slot", "why_tests_cant": "merging adjacent and overlapping ranges in any interleaving cannot be enumerated", "anchors": ["src/common/hashslot/hash_slot.go:CombineEdges"]}
{"id": "C06", "title": "Range query reports coverage exactly", "statement": "Asking which owners cover a slot interval returns pieces that lie inside the interval, are disjoint, and give each covered slot its owner; the answer is flagged 'fully covered' exactly when every slot of the interval is covered; asking whether one owner holds the whole interval answers yes only if that owner holds every slot of it, and yes whenever it does.", "quantifier": "every well-formed table, every interval, every owner", "why_tests_cant": "clipping at both ends over arbitrary tables; off-by-one cases multiply", "anchors": ["src/common/hashslot/hash_slot.go:FindRangeCurrentData,IsValidEdge"]}
{"id": "C07", "title": "A slot migration conserves slots and keeps one owner per slot", "statement": "When a metadata server migrates slots to another, then in every outcome (success, sender error, per-item failure, stream cut) every slot has exactly one owner afterwards, namely the receiver on success and the sender on failure.", "quantifier": "every initial disjoint slot assignment, every set of migrated slots, every pattern of item failures and every cut point", "why_tests_cant": "requires enumerating failure points of a two-party protocol", "anchors": ["src/metaserver/internal/usecase/service/hashslot_service.go:PrepareMigrationTo,PrepareMigrationFrom,AutoMigrate,FinishReceiveItem", "src/metaserver/internal/controller/grpc/hashslot_server.go:StreamingReceive"]}
{"id": "C08", "title": "At most one migration at a time, and it always returns to normal service through finish or failure", "statement": "A metadata server is never migrating in both directions or with two peers at once; concurrent attempts to start a second migration are refused, and slot tables can be changed only while no migration is running.", "quantifier": "every interleaving of start, finish, save and close calls from any number of goroutines", "why_tests_cant": "interleavings of compare-and-swap transitions", "anchors": ["src/metaserver/internal/usecase/db/hashslot_db.go:ReadyMigrateFrom,ReadyMigrateTo,FinishMigrateFrom,FinishMigrateTo,Save,Remove,Close"]}
{"id": "C09", "title": "Data size texts mean what they say", "statement": "Parsing an accepted size text '<n><unit>' yields exactly n times the unit in bytes, and texts whose value does not fit are rejected.", "quantifier": "every digit string and unit", "why_tests_cant": "overflow happens only for rare large inputs", "anchors": ["src/common/datasize/datasize.go:Parse"]}
{"id": "C10", "title": "Wildcards match exactly the glob language", "statement": "A pattern with '*' (any run of characters) and '?' (exactly one character) matches a name exactly when the name can be obtained from the pattern by those substitutions; in the simple variant a '?' at the end of the pattern may also stand for nothing.", "quantifier": "every pattern and every name", "why_tests_cant": "recursive matcher with backtracking; mismatches occur in corner combinations", "anchors": ["src/common/wildcard/wildcard.go:Match,MatchSimple,deepMatchRune"]}
{"id": "C11", "title": "Encoded record arrays decode to the same records", "statement": "Encoding a list of records into the length-prefixed wire format used between servers and decoding the bytes returns the same list in the same order.", "quantifier": "every list of records of any encoded length (below 2^31 bytes each, longer ones are refused)", "why_tests_cant": "header buffer is reused between items; lengths at every varint boundary matter", "anchors": ["src/common/util/util.go:EncodeArrayMsgp,DecodeArrayMsgp"]}
{"id": "C12", "title": "Paging neither loses nor repeats items", "statement": "Reading pages 1,2,3,... of a listing with a fixed page size returns every item exactly once, in order, and pages past the end are reported as empty.", "quantifier": "every total, every page size, every page number", "why_tests_cant": "boundary arithmetic for all totals and sizes", "anchors": ["src/common/util/util.go:PagingOffset"]}
{"id": "C13", "title": "Direct-I/O readers return exactly the stored bytes", "statement": "Reading a stored file through the aligned, length-limited reader returns exactly the first N bytes that were stored, whatever buffer sizes the caller uses, and a padded write followed by a limited read is the identity.", "quantifier": "every file content, limit and sequence of read buffer sizes", "why_tests_cant": "depends on the interaction between arbitrary buffer sizes, file length and 4096-byte alignment", "anchors": ["src/common/system/disk/aligend_reader.go:AlignedReader.Read,AlignedLimitedReader.Read", "src/objectserver/internal/usecase/service/objects_service.go:GetFile,AppendFileAligned"]}
{"id": "C14", "title": "Version numbers are strictly increasing and never reused", "statement": "Every version added to an object gets a number larger than every number handed out before for that object (including removed versions) until the object's metadata is removed.", "quantifier": "every history of metadata operations", "why_tests_cant": "needs all histories including removals and migrations of explicit numbers", "anchors": ["src/metaserver/internal/usecase/logic/metadata_logic.go:AddVer,AddVerWithSequence,RemoveVer"]}
{"id": "C15", "title": "The metadata store behaves like a map of objects to numbered versions", "statement": "Add, update, remove and read of metadata and versions behave like operations on a map object -> (metadata, map number -> version): reads return the last successful write, failed operations change nothing, and operations on one object never affect another.", "quantifier": "every history of operations on every set of objects", "why_tests_cant": "histories of arbitrary length; cross-object interference through composed keys", "anchors": ["src/metaserver/internal/usecase/logic/metadata_logic.go:AddMeta,RemoveMeta,UpdateMeta,AddVer,RemoveVer,UpdateVer,getVer,getMeta"]}
{"id": "C16", "title": "Re-delivered version writes are recognised", "statement": "Adding a version with a unique id already stored is refused as existing and changes nothing, so a retried or replayed write never creates a second version; and once that version is removed its id is free again.", "quantifier": "every history of operations with every reuse pattern of unique ids", "why_tests_cant": "depends on index maintenance across all histories", "anchors": ["src/metaserver/internal/usecase/logic/metadata_logic.go:AddVer,AddVerWithSequence,RemoveVer", "src/metaserver/internal/usecase/logic/unique_id_index_logic.go"]}
{"id": "C17", "title": "Find-by-hash returns exactly the versions holding that content", "statement": "Looking up versions by content hash returns exactly the stored versions whose hash is the requested one.", "quantifier": "every history of operations and every hash", "why_tests_cant": "index must agree with the data after every history", "anchors": ["src/metaserver/internal/usecase/logic/hash_index_logic.go", "src/metaserver/internal/usecase/repo/metadata_repo.go:UpdateLocateByHash", "src/metaserver/internal/usecase/service/metadata_service.go:FindByHash"]}
{"id": "C18", "title": "Latest version means the newest version", "statement": "Reading an object without a version number returns the version with the largest number; first/last version numbers reported are the smallest/largest.", "quantifier": "every history, every number of versions", "why_tests_cant": "fails only with particular digit-length mixes of version numbers", "anchors": ["src/metaserver/internal/usecase/repo/metadata_repo.go:GetFirstVersionNumber,GetLastVersionNumber", "src/metaserver/internal/usecase/logic/metadata_logic.go:GetExtra"]}
{"id": "C19", "title": "Stale updates never overwrite newer data", "statement": "An update of metadata or a version is applied only if it is newer than the stored one; identity fields (bucket, creation time, number, hash, unique id) never change by an update.", "quantifier": "every history and every update", "why_tests_cant": "needs all orders of updates", "anchors": ["src/metaserver/internal/usecase/logic/metadata_logic.go:UpdateMeta,UpdateVer"]}
{"id": "C20", "title": "Replicas that apply the same log agree, however it is batched", "statement": "Two metadata replicas that apply the same sequence of log entries hold the same data and return the same results, regardless of how the consensus layer groups entries into batches.", "quantifier": "every log and every partition of it into batches", "why_tests_cant": "batching is chosen at run time by load", "anchors": ["src/metaserver/internal/usecase/raftimpl/fsm_impl.go:Apply,ApplyBatch,applyMetadata,applyVersion,applyVersionAll,applyBucket"]}
{"id": "C21", "title": "A restart that replays the log reproduces the same data", "statement": "If a metadata server restarts and the consensus layer replays already applied entries, the data afterwards equals the data before the restart.", "quantifier": "every log, every replay point", "why_tests_cant": "crash points and histories are unbounded", "anchors": ["src/metaserver/internal/usecase/raftimpl/fsm_impl.go:Apply,ApplyBatch", "src/metaserver/internal/usecase/repo/metadata_repo.go:LastAppliedIndex,ApplyIndex"]}
{"id": "C22", "title": "Erasure-coded objects read back intact with up to P shards missing", "statement": "For an object stored with D data and P parity shards, reading returns exactly the uploaded bytes whatever way the upload was split into writes and the read into reads, as long as at most P shards are unavailable; with more missing, the read fails rather than returning wrong bytes.", "quantifier": "every content, shard configuration, write split, read split and set of missing shards", "why_tests_cant": "combinatorial in content length, splits and failure sets", "anchors": ["src/apiserver/internal/usecase/service/rs_encoder.go:Write,Flush", "src/apiserver/internal/usecase/service/rs_decoder.go:Read,getData"]}
{"id": "C23", "title": "Stored shards survive block padding on the data servers", "statement": "What a data server returns for a shard equals what was sent to it, for every configuration the server accepts, although each appended block is padded to the device block size.", "quantifier": "every shard configuration, object size and block count", "why_tests_cant": "corruption appears only for particular shard counts and multi-block objects", "anchors": ["src/apiserver/config/config.go:initialize", "src/apiserver/internal/usecase/service/object_service.go:NewStreamProvider", "src/objectserver/internal/usecase/service/objects_service.go:AppendFileAligned"]}
{"id": "C24", "title": "Uploads always terminate", "statement": "Uploading an object of finite size terminates for every shard configuration and object size.", "quantifier": "every object size and shard configuration", "why_tests_cant": "non-termination for tiny sizes relative to shard count", "anchors": ["src/apiserver/internal/usecase/service/rs_encoder.go:Write", "src/apiserver/internal/usecase/service/object_service.go:NewStreamProvider"]}
{"id": "C25", "title": "Replicated objects read back intact from any copy", "statement": "For an object stored as N copies, reading any surviving copy returns exactly the uploaded bytes, however the upload was split.", "quantifier": "every content, write split, copy count, set of lost copies", "why_tests_cant": "splits and failures are unbounded", "anchors": ["src/apiserver/internal/usecase/service/copy_put_stream.go:Write,Flush,Commit", "src/apiserver/internal/usecase/service/copy_get_stream.go:Read"]}
{"id": "C26", "title": "Repair on read never damages an object", "statement": "When a read finds lost shards or copies and repairs them, then however much of the object the client reads (all, a range, a prefix), the repaired shard or copy equals the original and no surviving copy is forgotten.", "quantifier": "every content, every read prefix or range, every set of lost shards or copies", "why_tests_cant": "client disconnects and ranges are arbitrary", "anchors": ["src/apiserver/internal/usecase/service/rs_get_stream.go:Close", "src/apiserver/internal/usecase/service/copy_fix_stream.go", "src/apiserver/internal/usecase/service/copy_get_stream.go"]}
{"id": "C27", "title": "An object version becomes visible only after its data is committed", "statement": "At every crash point of an upload, each version visible in the metadata refers to data that has been committed on the data servers.", "quantifier": "every crash point and every upload path (single request and resumable)", "why_tests_cant": "crash points", "anchors": ["src/apiserver/internal/usecase/service/object_service.go:StoreObject", "src/apiserver/internal/controller/http/big_api.go:Patch,finishUpload"]}
{"id": "C28", "title": "Resumable uploads report the exact durable offset", "statement": "After any sequence of partial uploads and interruptions, the offset reported to the client equals the number of bytes durably stored from the start of the object, and resuming from it until the end yields exactly the object.", "quantifier": "every content, every sequence of partial requests", "why_tests_cant": "arbitrary interruption patterns", "anchors": ["src/apiserver/internal/controller/http/big_api.go:Head,Patch", "src/apiserver/internal/usecase/service/rs_resumable_stream.go:CurrentSize", "src/objectserver/internal/controller/http/temp/temp_rest.go:Head"]}
{"id": "C29", "title": "Each upload stream is finished exactly once", "statement": "A data-server upload is committed or discarded at most once however often close and commit are called, and writes after that are refused.", "quantifier": "every sequence of write/commit/close calls", "why_tests_cant": "call orders are unbounded", "anchors": ["src/apiserver/internal/usecase/service/put_stream.go:Write,Commit,Close"]}
{"id": "C30", "title": "Shards are spread evenly over the data servers", "statement": "When k shards are placed on n servers the number of shards on two servers differs by at most one, whichever selection strategy is used.", "quantifier": "every n >= 1, k and every choice made by the strategy", "why_tests_cant": "random choices", "anchors": ["src/apiserver/internal/usecase/componet/selector/selectors.go:IPSelector.Select"]}
{"id": "C31", "title": "Version retention keeps the newest versions", "statement": "Storing a new version in a bucket that keeps at most R versions removes only the oldest one when the limit is exceeded, so the newest R versions always remain; without versioning only the newest remains.", "quantifier": "every history of uploads and every R", "why_tests_cant": "only fails after particular numbers of versions", "anchors": ["src/apiserver/internal/usecase/service/object_service.go:StoreObject"]}
{"id": "C32", "title": "A request is served only if allowed", "statement": "With authentication enabled a request passes only if it is white-listed or some validator accepted it, and a request accepted by some validator is never refused.", "quantifier": "every list of validators, every outcome of each, every path", "why_tests_cant": "combinations of validators and errors", "anchors": ["src/apiserver/internal/usecase/componet/auth/auth_middleware.go:PreAuthenticate,AuthenticateWrap,AfterAuthenticate"]}
{"id": "C33", "title": "Equal dedup keys mean equal content and layout", "statement": "Two uploads share stored data only if their content digest and their storage layout (strategy, shard counts, compression) are the same.", "quantifier": "every pair of uploads", "why_tests_cant": "needs injectivity over all inputs", "anchors": ["src/apiserver/internal/usecase/service/object_service.go:UniqueHash"]}
{"id": "C34", "title": "Locating an object is complete", "statement": "When locating reports success, every shard of the object has a known server holding that shard.", "quantifier": "every order and multiplicity of replies", "why_tests_cant": "reply schedules", "anchors": ["src/apiserver/internal/usecase/service/object_service.go:LocateObject"]}
{"id": "C35", "title": "A stored object is read back unchanged from a data server", "statement": "Once a data server has acknowledged storing an object under a name, reading it (in whole or from any offset, with its size) returns exactly the stored bytes, also after repeated stores of the same name and failed attempts.", "quantifier": "every history of put, failed put, get, range get and delete", "why_tests_cant": "histories with failures and a read cache", "anchors": ["src/objectserver/internal/usecase/service/objects_service.go:Put,Get,GetFile,Exist,MarkExist,UnMarkExist"]}
{"id": "C36", "title": "The path index finds every stored path", "statement": "After paths were recorded for an object name and some removed, the index returns exactly the recorded ones that were not removed, and the most recent one as the last.", "quantifier": "every history of put/remove over every path text", "why_tests_cant": "text-encoded lists with separators and substrings", "anchors": ["src/objectserver/internal/db/object_path_cache.go:Put,Get,GetLast,Remove"]}
{"id": "C37", "title": "Server leave plans move everything", "statement": "When a data server leaves, the planned quotas of the remaining servers add up to at least the data it holds; when it joins, no server is asked to send more than its excess over the average.", "quantifier": "every number of servers and every capacity vector", "why_tests_cant": "arithmetic over arbitrary vectors", "anchors": ["src/objectserver/internal/usecase/service/migration_service.go:DeviationValues"]}
{"id": "C38", "title": "Object migration never loses an object", "statement": "At every point of a migration between data servers, each object is present on the sender or on the receiver in full.", "quantifier": "every file set, every failure pattern, every crash point", "why_tests_cant": "crash points and failures", "anchors": ["src/objectserver/internal/usecase/service/migration_service.go:SendingTo,sendFileTo,OpenFile,FinishObject"]}
{"id": "C39", "title": "Wrong-server metadata requests are redirected, right ones served", "statement": "A metadata request for a key is served locally exactly when the local server owns the key's slot; otherwise it is refused with the address of the owner.", "quantifier": "every key and slot table", "why_tests_cant": "all keys and tables", "anchors": ["src/metaserver/internal/controller/grpc/middleware.go:CheckKeySlot", "src/metaserver/internal/usecase/logic/hashslot_logic.go:IsKeyOnThisServer"]}
{"id": "C40", "title": "Metadata migration moves every key exactly once", "statement": "After a successful metadata migration every object and bucket whose slot was migrated is on the receiver with all its versions and numbers, the others stay on the sender, and a failure loses nothing.", "quantifier": "every store content, slot set and failure pattern", "why_tests_cant": "store contents and failures are unbounded", "anchors": ["src/metaserver/internal/usecase/service/hashslot_service.go:migrateMetadata,migrateBuckets,ReceiveItem"]}
{"id": "C41", "title": "Range headers are read as written", "statement": "A 'Range: bytes=a-b,c-d,...' header yields exactly the listed pairs in order; a suffix range '-n' means the last n bytes.", "quantifier": "every non-empty list of pairs of non-negative 64-bit offsets", "why_tests_cant": "text parser over unbounded lists", "anchors": ["src/common/request/range.go:ConvertFrom", "src/common/util/util.go:ToInt64"]}
{"id": "C42", "title": "Chunks by possibly negative indexes are the right elements", "statement": "Asking for elements start..end (inclusive, negative counting from the tail, too large cut to the last) returns exactly those elements and never fails.", "quantifier": "every list, start and end", "why_tests_cant": "index arithmetic with negative modulus", "anchors": ["src/common/util/slices/slices.go:SafeChunk", "src/common/util/math/math.go:LogicMod"]}
{"id": "C43", "title": "Concatenated readers deliver the concatenation and report errors", "statement": "Reading from several sources chained together returns their bytes in order, fills every buffer until the end, and reports a read error of a source.", "quantifier": "every list of sources with arbitrary short reads and errors, every buffer size", "why_tests_cant": "depends on how sources split their data", "anchors": ["src/common/system/disk/multi_reader.go:Read"]}
{"id": "C44", "title": "Appending to a padded file keeps its content", "statement": "Writing more data to a stored file of known size leaves the old content in place, followed by the new data and less than a page of padding.", "quantifier": "every old content, new data and buffer size", "why_tests_cant": "page boundary cases", "anchors": ["src/objectserver/internal/usecase/service/objects_service.go:WriteFileWithSize"]}
{"id": "C45", "title": "Numbers stored as bytes read back the same", "statement": "Every 64-bit number turned into key bytes is read back as the same number.", "quantifier": "every 64-bit number", "why_tests_cant": "boundary values of a variable length code", "anchors": ["src/common/util/util.go:IntToBytes,BytesToInt"]}
{"id": "C46", "title": "Bulk fill sets every element", "statement": "Filling a slice with a value (or repeating a pattern) sets every element accordingly, so padding consists of zero bytes only.", "quantifier": "every slice length, value and pattern", "why_tests_cant": "doubling copy loop over all lengths", "anchors": ["src/common/util/slices/slices.go:Fill,FillPattern"]}
{"id": "C47", "title": "Extremal selection picks an extremal element", "statement": "Selecting the extremal element under a strict weak order returns an element no other element beats.", "quantifier": "every list and every strict weak order", "why_tests_cant": "all lists and orders", "anchors": ["src/common/util/slices/slices.go:ExtremalIndex,Extremal"]}
{"id": "C48", "title": "Listing by prefix returns exactly the matching entries in order", "statement": "Listing objects or buckets by prefix returns, in byte order of their keys, exactly the first n entries whose key starts with the prefix, together with the number of matching entries.", "quantifier": "every store content, every prefix and limit", "why_tests_cant": "needs all key sets around the prefix boundary", "anchors": ["src/metaserver/internal/usecase/repo/metadata_repo.go:ListMetadata", "src/metaserver/internal/usecase/logic/bucket_logic.go:List"]}
{"id": "C49", "title": "Pages of versions partition the versions of an object", "statement": "Listing the versions of an object page by page yields every version exactly once, in increasing order of number.", "quantifier": "every history, every page size", "why_tests_cant": "fails only with particular numbers of versions and page sizes", "anchors": ["src/metaserver/internal/usecase/service/metadata_service.go:ListVersions", "src/metaserver/internal/usecase/repo/metadata_repo.go:ListVersions"]}
{"id": "C50", "title": "A range read returns the rest of the object", "statement": "Seeking to an offset before reading and then reading to the end returns exactly the bytes of the object from that offset on, with each of the two storage strategies.", "quantifier": "every object content, offset inside it, read chunking and loss pattern within the tolerance", "why_tests_cant": "needs every offset relative to block and shard boundaries", "anchors": ["src/apiserver/internal/usecase/service/rs_get_stream.go:Seek", "src/apiserver/internal/usecase/service/copy_get_stream.go:Seek", "src/apiserver/internal/usecase/service/get_stream.go:Seek", "src/objectserver/internal/usecase/service/objects_service.go:GetFile", "src/apiserver/internal/controller/http/objects_api.go:Get"]}
{"id": "C51", "title": "Waiting for a group of workers reports their failures", "statement": "When the wait for a group of workers returns without an error, every worker has finished and none has failed; an error that is returned was reported by one of them; the wait always returns.", "quantifier": "every number of workers, outcome and interleaving", "why_tests_cant": "needs particular goroutine schedules", "anchors": ["src/common/util/done_group.go:Error,WaitDone,WaitUntilError"]}
{"id": "C52", "title": "An object is read with the layout it was stored with", "statement": "Reading an object cuts its shards into the same blocks that were used when it was stored.", "quantifier": "every object, every change of the server configuration between storing and reading", "why_tests_cant": "needs a configuration change between two requests", "anchors": ["src/apiserver/internal/usecase/service/object_service.go:NewStreamProvider", "src/apiserver/internal/entity/metadata.go:MakeVersion"]}
{"id": "C53", "title": "Starting a server never changes the stored credential", "statement": "Starting an API server leaves an existing credential as it is, and writes a new one only if a name and a password are configured.", "quantifier": "every configuration, every stored credential, every failure of the credential store", "why_tests_cant": "needs etcd failures at start", "anchors": ["src/apiserver/internal/usecase/componet/auth/password_validator.go:init"]}
{"id": "C54", "title": "The bucket decides the storage layout", "statement": "If a bucket prescribes a storage strategy, every version stored in it has that strategy and the bucket's shard counts, whatever the client asked for; compression prescribed by the bucket is always applied.", "quantifier": "every bucket, server configuration and client request", "why_tests_cant": "needs all combinations", "anchors": ["src/apiserver/internal/entity/metadata.go:MakeVersion"]}
{"id": "C55", "title": "After a move the metadata knows where the object is", "statement": "When the move of an object between data servers is acknowledged, every metadata group that knows the object records the new server.", "quantifier": "every number of metadata groups and every pattern of their answers", "why_tests_cant": "answer patterns of several servers", "anchors": ["src/objectserver/internal/usecase/service/migration_service.go:FinishObject"]}
{"id": "C56", "title": "Reads answer the current data", "statement": "Reading an object's metadata, a version or a bucket through the server's record cache answers what the database holds at that moment.", "quantifier": "every interleaving of writes, reads, background cache updates and cache losses", "why_tests_cant": "the stale answers need particular interleavings, or states such as ten versions or ids that look alike", "anchors": ["src/metaserver/internal/usecase/repo/metadata_repo.go:GetMetadata", "src/metaserver/internal/usecase/repo/metadata_repo.go:GetVersion", "src/metaserver/internal/usecase/repo/bucket_repo.go:Get", "src/metaserver/internal/usecase/repo/metadata_cache_repo.go"]}
{"id": "C57", "title": "A page of versions does not depend on what is cached", "statement": "Listing a page of an object's versions gives the same list whichever of its versions happen to be cached.", "quantifier": "every history, page and set of cached versions", "why_tests_cant": "depends on the cache content and the numbers involved", "anchors": ["src/metaserver/internal/usecase/repo/metadata_repo.go:ListVersions", "src/metaserver/internal/usecase/repo/metadata_cache_repo.go:ListVersions"]}
{"id": "C58", "title": "Acknowledged writes and installed snapshots survive restarts of the metadata server", "statement": "A metadata server process started at any time finds in its database file the last installed snapshot followed by every write acknowledged since, and the running process reads exactly that; reads do not fail while the server is up.", "quantifier": "every interleaving of writes, reads, snapshot installations, their clean-up goroutines, stop, process end and restart", "why_tests_cant": "The clean-up of a replaced file, the rename at stop and process ends interleave; tests run one of these orders.", "anchors": ["src/metaserver/internal/usecase/db/storage.go:49-144", "src/metaserver/internal/usecase/repo/metadata_repo.go:308-328", "src/metaserver/internal/usecase/pool/pool.go:72-100"]}
{"id": "C59", "title": "Acknowledged metadata writes are in the replicated log and the servers of a group agree", "statement": "With raft on, a metadata server acknowledges a write only if it is in the group's log, and each server's data is exactly what the log entries it has applied give; so servers that applied the same entries hold the same data. A write answered with an error can be repeated without being stored twice.", "quantifier": "every number of servers, every interleaving of requests (gRPC and HTTP) at any server, log delivery, changes of leadership and of the migration status, and every outcome of a log append", "why_tests_cant": "Divergence needs a request at the wrong server or a leadership change between two lines; unit tests use one server.", "anchors": ["src/metaserver/internal/controller/grpc/middleware.go:31-90", "src/metaserver/internal/controller/http/middleware.go:11-35", "src/metaserver/internal/usecase/raftimpl/raft_apply.go:19-41", "src/metaserver/internal/usecase/service/metadata_service.go:26-135,231-233"]}
{"id": "C60", "title": "An object answered with a version number reads back as it was sent", "statement": "Once a PUT or a resumable upload whose client announced the true SHA-256 and size of its content has been answered with version number n, a GET of that object with version n returns exactly the bytes sent, as long as the version is not removed, whatever other clients upload, deduplicate or delete at the same time.", "quantifier": "all interleavings of any number of PUT and resumable uploads (honest or not) and other metadata calls, all contents, layouts, bucket settings, outcomes of locating, committing and looking up metadata", "why_tests_cant": "needs particular interleavings of deduplication and false announcements between clients, and combinations of settings (checksum, compression, resumable) that no test exercises", "anchors": ["src/apiserver/internal/usecase/service/object_service.go:111-248", "src/apiserver/internal/controller/http/big_api.go:40-273", "src/apiserver/internal/controller/http/objects_api.go:28-95", "src/apiserver/internal/usecase/repo/version_repo.go:21-57"]}
{"id": "C61", "title": "A read-only bucket takes no new version", "statement": "While a bucket is read-only no upload to it is answered with a version number.", "quantifier": "all worlds, requests and continuations", "why_tests_cant": "the bucket must change between the steps of one upload", "anchors": ["src/apiserver/internal/usecase/service/object_service.go:140-143", "src/apiserver/internal/controller/http/big_api.go:48-62", "src/apiserver/internal/controller/http/big_api.go:205-273"]}
{"id": "C62", "title": "Different objects have different records", "statement": "Two different pairs of bucket and object name, the names without slash, never share the identifier under which metadata and versions are kept.", "quantifier": "all bucket names, all object names without slash", "why_tests_cant": "needs pairs of names in which the separator can be read in two ways", "anchors": ["src/apiserver/internal/usecase/repo/meta_repo.go:18-48", "src/apiserver/internal/usecase/repo/version_repo.go:21-57"]}
{"id": "C63", "title": "What the API server saves in the metadata is read back", "statement": "A version, a bucket or metadata that the API server saves with success is afterwards read back by it with exactly the values given (plus the number and the times the server adds); removing a version removes that version and nothing else; a call that fails changes nothing.", "quantifier": "all databases reached by any history of calls, all ids, all field values, clocks and unique ids", "why_tests_cant": "needs values at the edges of the integer types of the message, repeated creation with other settings, and a check that all other records are untouched", "anchors": ["src/apiserver/internal/usecase/grpcapi/meta_server.go:44-242", "src/metaserver/internal/controller/grpc/metadata_server.go:44-188", "src/metaserver/internal/usecase/service/metadata_service.go:26-176", "src/metaserver/internal/usecase/service/bucket_service.go:20-35"]}
{"id": "C64", "title": "The new locations of repaired pieces are recorded", "statement": "When reading an object repairs missing pieces onto other servers, the version's recorded locations become the new ones.", "quantifier": "all objects, versions, locations and databases", "why_tests_cant": "the failing update is only logged; a test sees the right bytes", "anchors": ["src/apiserver/internal/usecase/service/object_service.go:234-248", "src/apiserver/internal/usecase/grpcapi/meta_server.go:120-142", "src/metaserver/internal/controller/grpc/metadata_server.go:145-157"]}
{"id": "C65", "title": "Errors keep their kind from the metadata server to the client", "statement": "An error of the metadata server reaches the HTTP client as the same kind: not found as 404, the client's mistakes as 400, lack of rights as 401/403, the server's failures as 5xx, and never as a success.", "quantifier": "all errors and all calls that can raise them", "why_tests_cant": "each error must be provoked through two servers", "anchors": ["src/common/response/response.go:109-170", "src/common/proto/generate.go:21-36", "src/metaserver/internal/controller/grpc/metadata_server.go:44-188", "src/apiserver/internal/usecase/grpcapi/meta_server.go:44-242"]}
{"id": "C66", "title": "The HTTP helpers answer with the status in their name", "statement": "Each helper of package response answers with the status its name or its error says.", "quantifier": "all helpers, all statuses of errors", "why_tests_cant": "needs the state in which no data server is known; the answer's body looks right", "anchors": ["src/common/response/response.go:21-137", "src/common/response/gin_executor.go:9-44", "src/apiserver/internal/controller/http/big_api.go:91-95"]}
{"id": "C67", "title": "A request passes the API server's checks exactly when it is entitled to", "statement": "A request below /v1 reaches its handler exactly when the checks are off, its route has a prefix on the white list, the callback server answered 200 for it, or it carries the stored administrator's credential; a request that does not is answered as failed.", "quantifier": "all configurations, requests, callback servers (including silent ones) and states of the credential key", "why_tests_cant": "needs every combination of the ways in, switched on and off, with each of their failures", "anchors": ["src/apiserver/internal/usecase/componet/auth/auth_middleware.go:14-62", "src/apiserver/internal/usecase/componet/auth/callback_validator.go:25-66", "src/apiserver/internal/usecase/componet/auth/password_validator.go:54-79"]}
{"id": "C68", "title": "What the callback server was asked about is what is done", "statement": "When the callback server decides about a request, the bucket, name and method it is told are those of the object or bucket the request then reads or changes.", "quantifier": "all routes below /v1, hosts, headers, tokens and bodies", "why_tests_cant": "the callback sees plausible values; only comparing them with the handler's own reading of the request shows the difference", "anchors": ["src/apiserver/internal/usecase/componet/auth/callback_validator.go:38-66", "src/apiserver/internal/controller/http/big_api.go:138-200", "src/apiserver/internal/controller/http/bucket_api.go:18-70", "src/apiserver/internal/usecase/service/rs_resumable_stream.go:11-39"]}
{"id": "C69", "title": "Starting an API server keeps the administrator's credential", "statement": "Starting API servers, in any number and with any configuration, never changes a stored credential, and an empty user name or password never gets in.", "quantifier": "all sequences of starts, configurations and failures of etcd", "why_tests_cant": "needs etcd to fail for the one read at start and to answer the write after it", "anchors": ["src/apiserver/internal/usecase/componet/auth/password_validator.go:23-79"]}
{"id": "C70", "title": "New pieces go to the allowed drive with most space", "statement": "A data server's list of drives is that of the mounted, allowed drives with their space; a new piece goes to a drive of the list with most space; choosing never takes a drive off the list; a file is found on the drive it is on.", "quantifier": "all drives, configurations, answers of the system, and all interleavings of requests", "why_tests_cant": "needs particular interleavings of two sorts of one shared list, and drives filling up between choices", "anchors": ["src/objectserver/internal/usecase/component/driver_manager.go:33-121", "src/objectserver/internal/usecase/component/driver_balancer.go:21-67", "src/common/util/slices/slices.go:65-77"]}
{"id": "C71", "title": "Temporary files do not outlive their upload", "statement": "When the notifications of ended uploads have been handled, every temporary file of a data server belongs to an upload the server still knows: a deleted, expired or committed upload leaves no file behind.", "quantifier": "all histories of uploads, mount points, expiries and restarts", "why_tests_cant": "needs a second mount point, or a restart between upload and commit; the leftover is invisible to every later request", "anchors": ["src/objectserver/internal/usecase/service/temp_service.go", "src/objectserver/internal/controller/http/temp/temp_rest.go", "src/objectserver/internal/usecase/service/common.go"]}
{"id": "C72", "title": "A committed piece is what was uploaded", "statement": "The file of an upload is the bodies the server received for it, padded at the end; HEAD tells its length up to the announced size; a commit stores exactly that file under the piece's name, and an existing piece is kept.", "quantifier": "all histories before and during the upload, all bodies, page sizes and compressions", "why_tests_cant": "needs bodies that do not fill pages or break off, and a retry after an error", "anchors": ["src/objectserver/internal/controller/http/temp/temp_rest.go", "src/objectserver/internal/usecase/service/temp_service.go"]}
{"id": "C73", "title": "The counter of stored bytes is the size of the stored files", "statement": "When no goroutine is left, the counter a data server reports and plans its migration by is the total size of the files it holds; so a server that leaves moves all of them.", "quantifier": "all histories of uploads, commits, deletions, receipts and starts and all orders of the counting goroutines", "why_tests_cant": "needs compressed pieces or unlucky orders of goroutines, and shows only when a server leaves", "anchors": ["src/objectserver/internal/usecase/service/objects_service.go", "src/objectserver/internal/usecase/service/temp_service.go", "src/objectserver/internal/usecase/service/migration_service.go", "src/objectserver/internal/db/object_capacity_db.go"]}
{"id": "C74", "title": "The admin server's pages partition objects and buckets", "statement": "Page k of the admin server's listing of objects or buckets is the k-th page of everything the metadata servers hold that matches, in the order of the keys; so the pages together show every entry exactly once.", "quantifier": "all histories of all metadata servers, numbers and order of servers, filters, pages and page sizes, and sorting functions", "why_tests_cant": "needs entries whose order differs between two notions of key, at a page boundary", "anchors": ["src/adminserver/internal/usecase/logic/metadata_logic.go:48-125", "src/adminserver/internal/usecase/webapi/metadata_server.go:13-45", "src/common/proto/msg/metadata.go:24-26"]}
{"id": "C75", "title": "The total of a listing is the number of matching entries", "statement": "The total the admin server reports with a page, and on its overview, is the number of matching entries of all metadata servers.", "quantifier": "all histories of all metadata servers, filters, pages and page sizes", "why_tests_cant": "wrong only with a filter and more entries than the page, or after the last page", "anchors": ["src/adminserver/internal/usecase/logic/metadata_logic.go:48-125", "src/adminserver/internal/usecase/logic/metadata_logic.go:246-260", "src/adminserver/internal/usecase/webapi/metadata_server.go:13-45"]}
{"id": "C76", "title": "The discovered servers are the registered ones", "statement": "A server's copy of the registry holds, for each service, exactly the entries etcd holds, as of the changes delivered so far.", "quantifier": "all pasts of the registry, and all interleavings of changes, the fetch, watches, deliveries and cancellations", "why_tests_cant": "needs a change to fall between a fetch and a watch, or between two watches", "anchors": ["src/common/registry/etcd_discovery.go:23-101", "src/common/registry/etcd_discovery.go:175-187", "src/common/registry/service_list.go:18-34", "src/common/registry/config.go:32-34"]}
{"id": "C77", "title": "Servers are found by their ids", "statement": "The mappings of ids to addresses list exactly the servers of the asked service (and role), each under its id.", "quantifier": "all groups, names, ids, addresses, roles, sets of servers and orders of iteration", "why_tests_cant": "depends on single characters of configured names and on coincidences of addresses", "anchors": ["src/common/registry/etcd_discovery.go:103-173", "src/common/registry/etcd_registry.go:23-72", "src/common/registry/config.go:22-44", "src/common/cst/etcd_prefix.go:27-29"]}
{"id": "C78", "title": "A running server stays registered", "statement": "Whatever leases end, a server that runs gets registered again.", "quantifier": "all interleavings of the loop, notifications, answers of etcd and ends of leases", "why_tests_cant": "needs etcd to fail at one particular request", "anchors": ["src/common/registry/etcd_lifecycle.go:32-94", "src/common/registry/etcd_registry.go:93-99"]}
{"id": "C79", "title": "A metadata server is registered under its role only", "statement": "When no call is under way, a metadata server has one entry at most, for the role it took last, bound to its lease.", "quantifier": "all interleavings of leases, changes of leadership and their steps", "why_tests_cant": "needs two calls to overlap at a particular point", "anchors": ["src/metaserver/internal/usecase/logic/registry_logic.go:11-18", "src/common/registry/etcd_registry.go:39-51", "src/common/registry/etcd_registry.go:93-104", "src/metaserver/internal/usecase/raftimpl/raft_impl.go:128-152"]}
{"id": "C80", "title": "Malformed requests are refused", "statement": "A request is accepted exactly when every value it gives to a declared parameter is readable and obeys the rules of the handler.", "quantifier": "all requests: paths, queries, headers and bodies", "why_tests_cant": "the values that slip through are those no client library sends; the answer looks successful", "anchors": ["src/apiserver/internal/entity/binder.go:8-29", "src/apiserver/internal/entity/dto.go:23-96", "src/apiserver/internal/controller/http/metadata_api.go:28-56", "src/objectserver/internal/controller/http/objects/objects_rest.go:18-70", "src/objectserver/internal/controller/http/temp/temp_rest.go:42-117", "src/metaserver/internal/controller/http/version_rest.go:123-138", "src/metaserver/internal/entity/binder.go:8-22"]}
{"id": "C81", "title": "Parameters come from their declared places", "statement": "The values a handler works with are those at the places its parameters are declared for, so the object acted on is the one the callback server was asked about.", "quantifier": "all requests, including ones with further keys in query and headers", "why_tests_cant": "needs keys that are Go field names, which no test sends", "anchors": ["src/apiserver/internal/entity/binder.go:8-29", "src/apiserver/internal/entity/dto.go:23-96", "src/apiserver/internal/controller/http/metadata_api.go:28-56", "src/apiserver/internal/usecase/componet/auth/callback_validator.go:38-66"]}
{"id": "C82", "title": "Slot interval queries are exact", "statement": "Asking a slot table for an interval returns, inside it, exactly the owners of the covered slots, and says that the interval is fully covered exactly when every slot of it is.", "quantifier": "all ascending tables and non-empty intervals", "why_tests_cant": "boundaries of ranges meet in unboundedly many ways", "anchors": ["src/common/hashslot/hash_slot.go:FindRangeCurrentData,IsValidEdge"]}
{"id": "C83", "title": "A slot has one owner in every accepted table", "statement": "In any table of slots the servers accept, no slot belongs to two servers.", "quantifier": "all tables, orders of servers and slots", "why_tests_cant": "ranges overlap in unboundedly many ways", "anchors": ["src/metaserver/internal/usecase/service/hashslot_service.go:PrepareMigrationTo,PrepareMigrationFrom,AutoMigrate,FinishReceiveItem", "src/metaserver/internal/controller/grpc/hashslot_server.go:StreamingReceive"]}
{"id": "C84", "title": "At most one slot migration at a time", "statement": "Whatever calls overlap, a migration starts only when none is running, ends only in its own direction, and a second start is refused and changes nothing.", "quantifier": "all sets of calls and all their interleavings", "why_tests_cant": "needs particular interleavings", "anchors": ["src/metaserver/internal/usecase/db/hashslot_db.go:ReadyMigrateFrom,ReadyMigrateTo,FinishMigrateFrom,FinishMigrateTo,Save,Remove,Close"]}
{"id": "C85", "title": "The slot table changes only through requests that found the server idle", "statement": "Every change of a server's slot table is made by a request that found no migration running when it began; one that begins during a migration is refused.", "quantifier": "all sets of calls and all their interleavings", "why_tests_cant": "needs particular interleavings", "anchors": ["src/metaserver/internal/usecase/db/hashslot_db.go:ReadyMigrateFrom,ReadyMigrateTo,FinishMigrateFrom,FinishMigrateTo,Save,Remove,Close"]}
{"id": "C86", "title": "Wildcard patterns match the glob language", "statement": "A name matches a pattern exactly when it can be obtained by replacing each '*' by any text and each '?' by one character.", "quantifier": "all patterns and names", "why_tests_cant": "the match backtracks over unboundedly many splits", "anchors": ["src/common/wildcard/wildcard.go:Match,MatchSimple,deepMatchRune"]}
{"id": "C87", "title": "A new version with a fresh id is stored", "statement": "Adding a version whose unique id no earlier call used succeeds on an existing object and stores exactly the given data under a new number.", "quantifier": "all histories of calls", "why_tests_cant": "depends on all earlier calls", "anchors": ["src/metaserver/internal/usecase/logic/metadata_logic.go:AddVer,AddVerWithSequence,RemoveVer", "src/metaserver/internal/usecase/logic/unique_id_index_logic.go"]}
{"id": "C88", "title": "Find-by-hash misses nothing and invents nothing", "statement": "Every stored version is found under its hash, and everything found is a stored version.", "quantifier": "all histories of calls", "why_tests_cant": "depends on all earlier calls", "anchors": ["src/metaserver/internal/usecase/logic/hash_index_logic.go", "src/metaserver/internal/usecase/repo/metadata_repo.go:UpdateLocateByHash", "src/metaserver/internal/usecase/service/metadata_service.go:FindByHash"]}
{"id": "C89", "title": "Batching of the replicated log does not matter", "statement": "However the entries the service writes are cut into batches, data and answers are those of the entries one by one.", "quantifier": "all sequences of entries and all partitions", "why_tests_cant": "raft cuts batches as load demands", "anchors": ["src/metaserver/internal/usecase/raftimpl/fsm_impl.go:Apply,ApplyBatch,applyMetadata,applyVersion,applyVersionAll,applyBucket"]}
{"id": "C90", "title": "Without versioning only the newest version remains", "statement": "After any number of uploads of an object one after the other, without versioning or with a limit of one, exactly the newest version exists.", "quantifier": "all numbers of uploads and their data", "why_tests_cant": "any number of uploads", "anchors": ["src/apiserver/internal/usecase/service/object_service.go:StoreObject"]}
{"id": "C91", "title": "Equal content and layout get equal dedup keys", "statement": "Two uploads with the same digest, strategy, shards and compression get the same key.", "quantifier": "all digests and layouts", "why_tests_cant": "any two uploads", "anchors": ["src/apiserver/internal/usecase/service/object_service.go:UniqueHash"]}
{"id": "C92", "title": "Reported locations are right", "statement": "Every location reported for a piece is that of a server storing it, however answers are ordered, repeated and batched; the wait does not panic and ends once there are enough answers.", "quantifier": "all servers, stored pieces and orders of answers", "why_tests_cant": "needs particular orders of answers", "anchors": ["src/apiserver/internal/usecase/service/object_service.go:LocateObject"]}
{"id": "C93", "title": "Waiting for workers ends, and success means all are done", "statement": "The wait for a group of workers never gets stuck; it reports success only after every worker ended, and an error only if a worker reported it.", "quantifier": "all numbers of workers, outcomes and interleavings", "why_tests_cant": "needs particular interleavings", "anchors": ["src/common/util/done_group.go:Error,WaitDone,WaitUntilError"]}
{"id": "C94", "title": "The checks let writes through on the leader only", "statement": "A checked metadata write passes only on a server that takes itself for the leader and, items of a migration aside, outside a migration; the log only grows.", "quantifier": "all servers' states, requests and runs", "why_tests_cant": "needs a change of leadership at the right moment", "anchors": ["src/metaserver/internal/controller/grpc/middleware.go:31-90", "src/metaserver/internal/controller/http/middleware.go:11-35", "src/metaserver/internal/usecase/raftimpl/raft_apply.go:19-41", "src/metaserver/internal/usecase/service/metadata_service.go:26-135,231-233"]}
{"id": "C95", "title": "Versions and metadata are removed and created as asked", "statement": "Removing a version removes it and nothing else, or is refused when there is none; creating metadata stores it with the time and changes nothing else.", "quantifier": "all databases, names and numbers", "why_tests_cant": "any stored data", "anchors": ["src/apiserver/internal/usecase/grpcapi/meta_server.go:44-242", "src/metaserver/internal/controller/grpc/metadata_server.go:44-188", "src/metaserver/internal/usecase/service/metadata_service.go:26-176", "src/metaserver/internal/usecase/service/bucket_service.go:20-35"]}
{"id": "C96", "title": "Access is granted exactly to the entitled", "statement": "A request reaches its handler exactly when authentication is off, its route is on the white list, the callback server grants it or it carries the stored credential.", "quantifier": "all configurations, callback servers, credentials and requests", "why_tests_cant": "the four ways interact in an order", "anchors": ["src/apiserver/internal/usecase/componet/auth/auth_middleware.go:14-62", "src/apiserver/internal/usecase/componet/auth/callback_validator.go:25-66", "src/apiserver/internal/usecase/componet/auth/password_validator.go:54-79"]}
{"id": "C97", "title": "The list of drives and the choice from it", "statement": "After an update the list is that of the mounted and allowed drives with their space; a request alone takes a drive with most space, and any choice is a drive of the list.", "quantifier": "all mount points, settings and interleavings of choices", "why_tests_cant": "needs overlapping choices", "anchors": ["src/objectserver/internal/usecase/component/driver_manager.go:33-121", "src/objectserver/internal/usecase/component/driver_balancer.go:21-67", "src/common/util/slices/slices.go:65-77"]}
{"id": "C98", "title": "A commit stores the file that arrived", "statement": "Until an upload is ended, given up or forgotten, its file is the padded bodies that arrived, HEAD tells its length up to the announced size and a commit stores it without replacing an object.", "quantifier": "all histories of the data server", "why_tests_cant": "any interleaving with other uploads", "anchors": ["src/objectserver/internal/controller/http/temp/temp_rest.go", "src/objectserver/internal/usecase/service/temp_service.go"]}
{"id": "C99", "title": "The overview counts every object and bucket once", "statement": "The numbers of objects and buckets on the overview are those of the entries of all metadata servers.", "quantifier": "all metadata servers and entries", "why_tests_cant": "any distribution of entries over servers", "anchors": ["src/adminserver/internal/usecase/logic/metadata_logic.go:48-125", "src/adminserver/internal/usecase/logic/metadata_logic.go:246-260", "src/adminserver/internal/usecase/webapi/metadata_server.go:13-45"]}
{"id": "C100", "title": "Accepted requests obey the rules of their handler", "statement": "Whatever a request carries, the values a handler works with obey the rules declared for them.", "quantifier": "all structures and requests", "why_tests_cant": "any combination of sources", "anchors": ["src/apiserver/internal/entity/binder.go:8-29", "src/apiserver/internal/entity/dto.go:23-96", "src/apiserver/internal/controller/http/metadata_api.go:28-56", "src/objectserver/internal/controller/http/objects/objects_rest.go:18-70", "src/objectserver/internal/controller/http/temp/temp_rest.go:42-117", "src/metaserver/internal/controller/http/version_rest.go:123-138", "src/metaserver/internal/entity/binder.go:8-22"]}
{"id": "C101", "title": "Pages are blocks of the listing", "statement": "Page k of a listing is its k-th block of the page size, a page after the end is reported as such, and enough pages make up the listing.", "quantifier": "all listings, page sizes and page numbers from 1", "why_tests_cant": "boundaries for all sizes", "anchors": ["src/common/util/util.go:PagingOffset"]}
{"id": "C102", "title": "Bytes written with padding are read back", "statement": "Writing data padded to whole pages and reading its length back through the direct reader returns the data, whatever the short reads.", "quantifier": "all data, page-multiple buffers and short reads", "why_tests_cant": "boundaries for all lengths and splits", "anchors": ["src/common/system/disk/aligend_reader.go:AlignedReader.Read,AlignedLimitedReader.Read", "src/objectserver/internal/usecase/service/objects_service.go:GetFile,AppendFileAligned"]}
{"id": "C103", "title": "Range reads of erasure-coded objects return the rest", "statement": "After skipping some bytes of an erasure-coded object, reading on returns the object from there, with enough shards left.", "quantifier": "all objects, layouts, lost shards, offsets and buffers", "why_tests_cant": "boundaries for all lengths and losses", "anchors": ["src/apiserver/internal/usecase/service/rs_get_stream.go:Seek", "src/apiserver/internal/usecase/service/copy_get_stream.go:Seek", "src/apiserver/internal/usecase/service/get_stream.go:Seek", "src/objectserver/internal/usecase/service/objects_service.go:GetFile", "src/apiserver/internal/controller/http/objects_api.go:Get"]}
{"id": "C104", "title": "The collector keeps the measurements", "statement": "Every measurement handed over has been put or is still waiting for its goroutine. A collector that flushes when full has each one put in memory or in its store, once and in order; one that drops when full has the latest ones in memory. With a store that refuses nothing, memory holds at most MaxInMemory.", "quantifier": "all configurations and sequences of calls, goroutine schedules, ticks, closes and refusals of the store", "why_tests_cant": "needs concurrent callers and a store that fails now and then", "anchors": ["src/common/performance/collector.go:64-166"]}
{"id": "C105", "title": "Closing saves everything; memory is bounded", "statement": "After a successful Close every measurement handed over is in the store; memory never holds more than MaxInMemory measurements.", "quantifier": "all configurations and sequences of calls, goroutine schedules, ticks, closes and refusals of the store", "why_tests_cant": "depends on goroutines that have not run yet and on a store that fails for long", "anchors": ["src/common/performance/collector.go:83-136"]}
{"id": "C106", "title": "The local store returns and counts what was put", "statement": "Get and Size by kind, by action, by both or of everything give exactly the measurements put and not cleared.", "quantifier": "all sequences of puts and clears, all names", "why_tests_cant": "tests use a few names; keys are compared as prefixes", "anchors": ["src/common/performance/local_store.go:44-232", "src/common/performance/local_store.go:315-373"]}
{"id": "C107", "title": "Clearing removes exactly what is named", "statement": "Clear removes the measurements of the kind and action given, all of them and no other.", "quantifier": "all sequences of puts and clears, all names", "why_tests_cant": "the calls by one name fail only once there is something to clear", "anchors": ["src/common/performance/local_store.go:234-313"]}
{"id": "C108", "title": "Sums and averages", "statement": "Sum and Average have one row for each kind and action among the measurements, with the sum or the average of their costs.", "quantifier": "all measurements", "why_tests_cant": "needs names with dots or sums beyond 64 bits", "anchors": ["src/common/performance/store.go:93-139", "src/common/performance/local_store.go:42-42"]}
{"id": "C109", "title": "The shared store keeps what is put", "statement": "After a successful Put into the shared store, Get gives the measurements of the allowed actions with their costs; a Put of several measurements succeeds; Put and Close return, and a collector goes on saving; Clear removes what is named.", "quantifier": "all interleavings of the puts of any number of API servers and clears, all measurements and times", "why_tests_cant": "needs an etcd and its client", "anchors": ["src/common/performance/etcd_store.go:54-145", "src/common/performance/etcd_store.go:183-193", "src/common/performance/collector.go:83-153"]}
{"id": "C110", "title": "The shared store stays within its size", "statement": "The shared store never holds more than maxSize measurements, and the oldest go first.", "quantifier": "all interleavings of the puts of any number of API servers and clears, all times at which the counts arrive", "why_tests_cant": "the limit is a hundred thousand measurements and the count a race", "anchors": ["src/common/performance/etcd_store.go:34-67", "src/common/performance/etcd_store.go:147-173"]}
{"id": "C111", "title": "HEAD tells whether a data server has an object", "statement": "A data server answers HEAD with 200 for a name that is marked or cached, and otherwise exactly when there is a file where its index, or without an entry one of its drives, has it; in every other case with 404.", "quantifier": "all states of files, index, cache and drives", "why_tests_cant": "states after crashes, deletions by hand and late goroutines are not reached by tests", "anchors": ["src/objectserver/internal/usecase/service/objects_service.go:27-63", "src/objectserver/internal/controller/http/objects/objects_rest.go:95-102"]}
{"id": "C112", "title": "Both servers check before slots move", "statement": "Whatever slot tables the two servers have cached, a migration changes nothing unless the sender's table has it hold every slot named and the receiver's table has no named range lie within a range of the receiver.", "quantifier": "all tables, requests and faults", "why_tests_cant": "needs two servers with different tables", "anchors": ["src/metaserver/internal/usecase/service/hashslot_service.go:83-139"]}
{"id": "C113", "title": "A compressed piece reads back whole", "statement": "A piece written compressed is answered from its start with exactly the bytes written, up to the size asked for, without the padding it was committed with, and also when it was uploaded several times in turn.", "quantifier": "all contents, sizes, block sizes and packers that can be undone", "why_tests_cant": "needs contents of every length around the limits of blocks", "anchors": ["src/objectserver/internal/usecase/service/objects_service.go:245-307", "src/objectserver/internal/controller/http/objects/objects_rest.go:58-91"]}
{"id": "C114", "title": "A range read of a compressed piece gives the rest of it", "statement": "A request with an offset for a compressed piece is answered with the bytes of the piece from that offset on.", "quantifier": "all contents, offsets and sizes", "why_tests_cant": "the offset has to be compared with the compressed length, which depends on the content", "anchors": ["src/objectserver/internal/usecase/service/objects_service.go:245-262", "src/objectserver/internal/controller/http/objects/objects_rest.go:58-91", "src/apiserver/internal/usecase/service/copy_get_stream.go:55-57"]}
{"id": "C115", "title": "An answer with status 200 carries what was asked for", "statement": "A data server answers a read of a compressed piece with status 200 only if the body is the piece up to the size asked for.", "quantifier": "all files, sizes, states of a file during its upload, and damage", "why_tests_cant": "needs damaged files and reads in the middle of an upload", "anchors": ["src/objectserver/internal/usecase/service/objects_service.go:245-278", "src/objectserver/internal/controller/http/objects/objects_rest.go:58-91", "src/common/response/response.go:109-137"]}
{"id": "C116", "title": "Seek moves the reading position as io.Seeker says", "statement": "After a successful Seek the stream of a piece delivers the piece from the position named by offset and whence, and that position is the number returned.", "quantifier": "all contents, positions, offsets and whences", "why_tests_cant": "only the first call on a fresh stream is made by the handlers", "anchors": ["src/apiserver/internal/usecase/service/get_stream.go:46-76"]}
{"id": "C117", "title": "A panic stays within the request or worker it happens in", "statement": "A server goes on running after a handler, a gRPC call or a goroutine with a recovery deferred has panicked, and a worker's panic is delivered to its group as an error.", "quantifier": "all jobs, deferred calls of the code and panics", "why_tests_cant": "a test that panics in a goroutine ends the test process", "anchors": ["src/common/graceful/recover.go:12-23", "src/common/util/h2c_handler.go:68-86", "src/common/util/done_group.go:50-65", "src/common/util/done_group.go:143-151"]}
{"id": "C118", "title": "No map is accessed while another goroutine writes to it", "statement": "In every schedule of the goroutines that use a shared map, none accesses it while another one writes to it, which would end the process.", "quantifier": "all schedules of any number of goroutines running the programs of the code", "why_tests_cant": "needs an access to begin within the few instructions of a write, and the detection of the runtime is not certain", "anchors": ["src/apiserver/internal/usecase/grpcapi/base.go:12-35", "src/adminserver/internal/usecase/logic/conn.go:12-35", "src/apiserver/internal/usecase/componet/selector/space_first_selector.go:24-61", "src/apiserver/internal/usecase/componet/selector/weighted_io_first.go:30-66", "src/common/registry/service_list.go:18-55", "src/common/registry/etcd_discovery.go:23-65", "src/common/collection/set/map_set.go:40-59", "src/adminserver/internal/usecase/db/server_stat_db.go:99-172"]}
{"id": "C119", "title": "One connection is made per address", "statement": "However calls for connections interleave, never are two connections made for one address, all calls for an address that return a connection return the same one, and no call is stuck.", "quantifier": "all schedules of any number of calls, addresses and failures of dialling", "why_tests_cant": "needs calls for a new address that interleave at particular points", "anchors": ["src/apiserver/internal/usecase/grpcapi/base.go:17-35", "src/adminserver/internal/usecase/logic/conn.go:17-35"]}
{"id": "C120", "title": "The series of a server are its last 59 reports", "statement": "The points shown for a server are its reports to etcd, each once and in order, at most the last 59.", "quantifier": "all histories of etcd, all interleavings of changes, readings and deliveries", "why_tests_cant": "needs reports at the moment of starting, or a watch that is closed", "anchors": ["src/adminserver/internal/usecase/db/server_stat_db.go:42-57", "src/adminserver/internal/usecase/db/server_stat_db.go:106-172"]}
{"id": "C121", "title": "Reports and faults of etcd do not end the admin server", "statement": "Whatever servers report and whatever readings fail, the admin server goes on.", "quantifier": "all histories of etcd and all interleavings", "why_tests_cant": "needs a failed reading at the start or a record without processor or memory", "anchors": ["src/adminserver/internal/usecase/db/server_stat_db.go:106-159", "src/common/graceful/recover.go:12-23"]}
{"id": "C122", "title": "Pages of measurements show what was asked for", "statement": "A request for a kind of servers and a series gets the series of exactly these servers or an error, and the overview of a kind does not depend on the order of iteration.", "quantifier": "all requests, all measurements, all orders of iteration", "why_tests_cant": "needs odd requests, and the order of iteration over a map is random", "anchors": ["src/adminserver/internal/controller/http/server_state.go:103-108", "src/adminserver/internal/usecase/logic/server_monitor.go:69-108", "src/common/util/util.go:130-139"]}
{"id": "C123", "title": "The list of servers shows each registered server with its report", "statement": "The list has exactly the registered servers, each with its address and its latest report, an empty one if there is none; shares of memory are rounded up and never above the whole.", "quantifier": "all registries and all sets of records in etcd", "why_tests_cant": "needs unreadable records beside good ones, and ids with and without reports", "anchors": ["src/adminserver/internal/usecase/logic/server_monitor.go:23-59", "src/common/system/system_info.go:18-25"]}
{"id": "C124", "title": "A request is about the object that its path names", "statement": "The API server takes the last element of the path, decoded, for the name of the object: two ways of writing a name are one object, two names are two objects.", "quantifier": "all elements of paths and all names", "why_tests_cant": "needs names with characters that are written differently by different clients", "anchors": ["src/apiserver/internal/controller/http/server.go:25-40", "src/apiserver/internal/controller/http/objects_api.go:23-26"]}
{"id": "C125", "title": "The admin server acts on the object or bucket it was asked for", "statement": "For every name the request of the admin server reaches the handler of the API server with exactly that name and version.", "quantifier": "all names and versions", "why_tests_cant": "needs names with particular characters, and errors act on other objects silently", "anchors": ["src/adminserver/internal/usecase/webapi/api_server.go:36-72", "src/adminserver/internal/usecase/webapi/api_server.go:108-140"]}
{"id": "C126", "title": "Tokens of uploads survive the way through addresses", "statement": "The token read from a request to the address that was given for an upload is the token of the upload.", "quantifier": "all tokens in base64", "why_tests_cant": "slashes and plus signs in a token depend on the encoded bytes", "anchors": ["src/apiserver/internal/controller/http/big_api.go:109-119", "src/apiserver/internal/entity/dto.go:62-70"]}
{"id": "C127", "title": "Pages of the metadata server read names right and direct elsewhere right", "statement": "The metadata server takes an element of a path for the name it means, and the address it gives for another server leads to the same page there.", "quantifier": "all elements of paths, names, routes and queries", "why_tests_cant": "needs names with particular characters and a slot of another server", "anchors": ["src/metaserver/internal/controller/http/http.go:20-33", "src/metaserver/internal/controller/http/middleware.go:37-53", "src/metaserver/internal/usecase/logic/discover_logic.go:17-29"]}
{"id": "C128", "title": "A download answered with success is the whole object", "statement": "Whatever happens to the data server or the connection to it during a download of an object kept as copies, an answer with status 200 has exactly the content of the object as its body.", "quantifier": "all contents, failures of the disk at any byte, connections broken at any byte, refusals and missing answers", "why_tests_cant": "needs a disk or connection that fails in the middle of a download", "anchors": ["src/apiserver/internal/controller/http/objects_api.go:58-95", "src/apiserver/internal/usecase/service/get_stream.go:34-83", "src/objectserver/internal/controller/http/objects/objects_rest.go:58-91"]}
{"id": "C129", "title": "Downloads of erasure-coded objects survive servers that fail meanwhile", "statement": "If at most as many data servers as there are parity shards fail during a download, in whatever way, the download is the object.", "quantifier": "all objects, configurations, Reed-Solomon codes that can recover, servers failing at any byte in any way", "why_tests_cant": "needs servers that fail within a block of a shard", "anchors": ["src/apiserver/internal/usecase/service/rs_decoder.go:44-137", "src/apiserver/internal/usecase/service/get_stream.go:34-83", "src/apiserver/internal/controller/http/objects_api.go:84-94"]}
{"id": "C130", "title": "Downloads through the admin server are what the API server sent", "statement": "An answer of the admin server with status 200 has as its body what the API server sent as the object; errors of the API server keep their status.", "quantifier": "all answers of the API server and connections broken at any byte", "why_tests_cant": "needs connections that break in the middle of a download", "anchors": ["src/adminserver/internal/usecase/webapi/api_server.go:57-72", "src/adminserver/internal/controller/http/object.go:45-65"]}
{"id": "C131", "title": "A request to the admin server acts with the credential it carries itself", "statement": "What the admin server asks of an API server for a request carries the credential of that very request, whatever requests and sessions came before.", "quantifier": "all requests, cookies, sequences of requests and surroundings", "why_tests_cant": "depends on what a client did before and on the cookies it kept", "anchors": ["src/adminserver/internal/controller/http/auth.go:16-43", "src/adminserver/internal/controller/http_server.go:24-27"]}
{"id": "C132", "title": "Sessions of the admin server begin with a login and end with a logout", "statement": "After a successful login the requests of the client are let through, and after a logout its cookie holds no credential.", "quantifier": "all clients, credentials and sequences of requests", "why_tests_cant": "needs clients that rely on the session alone", "anchors": ["src/adminserver/internal/controller/http/auth.go:16-62"]}
{"id": "C133", "title": "Nothing is changed or told through the admin server without a valid credential", "statement": "Requests whose credential the API servers refuse change neither objects nor clusters and learn nothing about the servers.", "quantifier": "all requests, credentials and API servers that check them", "why_tests_cant": "needs requests with wrong credentials to every route", "anchors": ["src/adminserver/internal/controller/http/auth.go:37-43", "src/adminserver/internal/controller/http/metadata.go:21-35", "src/adminserver/internal/controller/http/object.go:20-27", "src/adminserver/internal/controller/http/server_state.go:21-28", "src/adminserver/internal/usecase/logic/metadata_logic.go:127-218"]}
{"id": "C134", "title": "The answer of the admin server tells what became of the request", "statement": "An operation or command is given exactly once, to the server it is meant for, and is reported as done if and only if that server reports it as done.", "quantifier": "all requests, registries and answers of the servers", "why_tests_cant": "needs servers that refuse or fail", "anchors": ["src/adminserver/internal/usecase/webapi/api_server.go:15-158", "src/adminserver/internal/usecase/logic/metadata_logic.go:127-244", "src/adminserver/internal/usecase/logic/object_logic.go:23-83", "src/adminserver/internal/usecase/logic/api_server_logic.go:10-15"]}
{"id": "C135", "title": "Membership commands change exactly the group of the leader asked", "statement": "A reported addition puts every voter, under the address given and no other, into the leader's group and a reported removal takes exactly the named server out; refused commands change nothing; only leaders obey; no group loses its last member or gets a member or address twice.", "quantifier": "all groups, servers, lists of voters and failures of single changes", "why_tests_cant": "needs groups of raft servers and changes that fail half way", "anchors": ["src/metaserver/internal/controller/grpc/raft_cmd_server.go:75-162", "src/metaserver/internal/controller/grpc/middleware.go:42-58", "src/metaserver/internal/usecase/logic/peers_logic.go:14-30"]}
{"id": "C136", "title": "The node list in the configuration of a leader follows its group", "statement": "After a reported addition the new servers are on the leader's list of nodes, after a reported removal the removed server is not and all others are.", "quantifier": "all node lists, groups and voters", "why_tests_cant": "the list is only read when a server starts or is asked to form a group", "anchors": ["src/metaserver/internal/controller/grpc/raft_cmd_server.go:94-107", "src/metaserver/internal/controller/grpc/raft_cmd_server.go:143-160"]}
{"id": "C137", "title": "A server that joins a group belongs to that group and to no other", "statement": "After a reported join the server is a voter of the new leader's group only, remembers its group id, node list and slots, also after a restart, and nobody else is touched; a join that is not reported changes nothing.", "quantifier": "all groups, servers, registries, etcd contents and failures", "why_tests_cant": "needs two groups and failures between the steps of a join", "anchors": ["src/metaserver/internal/controller/grpc/raft_cmd_server.go:164-208", "src/metaserver/internal/usecase/logic/raft_cluster_logic.go:17-53", "src/metaserver/internal/usecase/logic/hashslot_logic.go:27-60", "src/metaserver/config/config.go:38-54"]}
{"id": "C138", "title": "A server that leaves its group is out of it", "statement": "After a reported departure the server is in the group no more, nobody else is touched, it does not hold the group's slots any longer; the last member cannot leave and a failed departure changes nothing.", "quantifier": "all groups, leaders and followers", "why_tests_cant": "needs departures of leaders, followers and last members and restarts after them", "anchors": ["src/metaserver/internal/controller/grpc/raft_cmd_server.go:119-162", "src/metaserver/config/config.go:38-54"]}
{"id": "C139", "title": "A group is formed of the servers given, or of the server itself", "statement": "Forming a group by command or at start gives the servers named in the request or in the list of nodes; without any it is the server by itself; malformed nodes are skipped.", "quantifier": "all requests, node lists, ids, addresses and environments", "why_tests_cant": "needs malformed and missing lists of nodes on fresh servers", "anchors": ["src/metaserver/internal/controller/grpc/raft_cmd_server.go:36-73", "src/metaserver/internal/usecase/raftimpl/raft_impl.go:61-94", "src/metaserver/config/config.go:86-96"]}
{"id": "C140", "title": "Requests in flight are finished before a server ends", "statement": "When a server is told to stop, it takes no further requests, every request it is serving is served in full with the database, caches and registry still open, and only then the process ends; with nothing in flight it ends at once.", "quantifier": "all numbers of requests, lengths of requests and interleavings of requests, signal and shutdown", "why_tests_cant": "needs every interleaving of running requests with the steps of a shutdown", "anchors": ["src/common/graceful/graceful.go:22-68", "src/metaserver/internal/controller/http/http.go:45-61", "src/objectserver/internal/controller/http/router.go:50-66", "src/metaserver/internal/app/app.go:19-81"]}
{"id": "C141", "title": "The slots of a group survive stops, crashes and elections", "statement": "Whatever servers of a group stop, crash or are elected, the slots recorded for the group are those its last migration left, and stopping never panics.", "quantifier": "all sequences of elections, migrations, crashes and stops, with etcd answering or not", "why_tests_cant": "needs stops of leaders after migrations with elections of other servers", "anchors": ["src/metaserver/internal/app/app.go:69-78", "src/metaserver/internal/usecase/service/hashslot_service.go:48-69", "src/metaserver/internal/usecase/logic/hashslot_logic.go:27-38", "src/metaserver/internal/usecase/db/hashslot_db.go:158-199"]}
{"id": "C142", "title": "A data server that has left can join again", "statement": "Leaving stops every service once, last started first, joining again starts them again, in any order of requests, and after joining again the server is registered as before.", "quantifier": "all sequences of joins and leaves, leases, notifications and failures of etcd", "why_tests_cant": "needs a server that lives through several rounds and the timing of its lease", "anchors": ["src/objectserver/internal/usecase/pool/instance.go:38-75", "src/objectserver/internal/usecase/pool/instance.go:161-177", "src/objectserver/internal/app/app.go:16-51", "src/common/registry/etcd_lifecycle.go:47-94"]}
{"id": "C143", "title": "Migrating buckets moves the buckets in the slots and nothing else", "statement": "While buckets migrate, whatever others write and in whatever order the removals run, each bucket in the slots is sent or reported, only acknowledged buckets are removed, every other bucket stays, and the server lives on.", "quantifier": "all databases, selections of buckets, acknowledgements, interleavings with other writes and choices of pages by bolt", "why_tests_cant": "needs memory of the database reused between the reading of keys and their use", "anchors": ["src/metaserver/internal/usecase/service/hashslot_service.go:343-393", "src/metaserver/internal/usecase/repo/bucket_repo.go:23-25", "src/metaserver/internal/usecase/logic/bucket_logic.go:151-167", "src/common/util/util.go:272-275"]}
{"id": "C144", "title": "Finding by hash answers the versions there are", "statement": "FindByHash answers the versions of all entries of a hash that still exist, in order, and removes none of their entries.", "quantifier": "all entries of a hash, existing and removed versions, and choices of pages by bolt", "why_tests_cant": "needs several removed versions with one content and pages used again at once", "anchors": ["src/metaserver/internal/usecase/service/metadata_service.go:205-229", "src/metaserver/internal/usecase/repo/hash_index_repo.go:16-23", "src/metaserver/internal/usecase/logic/hash_index_logic.go:41-58"]}
{"id": "C145", "title": "A size written to a configuration is read as the same size", "statement": "A size that a server writes into a configuration, to show it or to keep it, is the size it had when it is read again.", "quantifier": "all sizes and all errors of math.Log near the borders of units", "why_tests_cant": "tests take whole numbers of one unit", "anchors": ["src/common/datasize/datasize.go:26-75"]}
{"id": "C146", "title": "The page of the configuration shows everything but secrets", "statement": "The configuration of a server can be asked for; the answer has every setting, and nothing in it depends on users and passwords.", "quantifier": "all configurations", "why_tests_cant": "a comparison of two configurations with different secrets; the default configuration is never asked for", "anchors": ["src/apiserver/internal/controller/http/internal_api.go:15-29", "src/metaserver/internal/controller/grpc/config_service.go:14-24", "src/apiserver/config/config.go:54"]}
{"id": "C147", "title": "A server started again is the same server", "statement": "A server that ended at any moment and is started again has its id, its directories and its settings, whatever address its machine has.", "quantifier": "all configurations, environments, addresses and moments of ending", "why_tests_cant": "needs a process ending between two system calls and machines changing addresses", "anchors": ["src/metaserver/config/config.go:38-72", "src/metaserver/config/config.go:108-119", "src/objectserver/config/config.go:57-63", "src/common/registry/config.go:22-44"]}
{"id": "C148", "title": "A cache holds no more than configured", "statement": "The memory a cache is allowed to take is no more than the configured size.", "quantifier": "all sizes", "why_tests_cant": "tests configure large caches and do not fill them", "anchors": ["src/metaserver/internal/usecase/pool/pool.go:90", "src/objectserver/internal/usecase/pool/instance.go:134"]}
{"id": "C149", "title": "A metadata request reaches a server that answers for its name", "statement": "An API server sends the request for an object to a server of the group that has its slot, and that server answers it; if nobody has the slot or the tables are not accepted the answer is an error and nothing is sent.", "quantifier": "all names, tables, registered servers, sets of peers and numbers of the random generator", "why_tests_cant": "needs groups of servers in the middle of an election or a restart; the generator decides who is asked", "anchors": ["src/apiserver/internal/usecase/logic/discovery_logic.go:27-85", "src/apiserver/internal/usecase/logic/hashslot_logic.go:22-47", "src/metaserver/internal/controller/grpc/middleware.go:101-120"]}
{"id": "C150", "title": "A read of metadata sees the writes acknowledged before", "statement": "A read that starts after a write was acknowledged sees that write, and no read sees less than one before it.", "quantifier": "all runs of a group, all servers a read may reach", "why_tests_cant": "a server lags for milliseconds only and the reader of a test is mostly sent to one that does not", "anchors": ["src/apiserver/internal/usecase/repo/meta_repo.go:19-30", "src/apiserver/internal/usecase/repo/version_repo.go:22-33", "src/apiserver/internal/usecase/logic/discovery_logic.go:67-85"]}
{"id": "C151", "title": "The metadata and the version of one answer belong together", "statement": "The metadata and the version that one request gets are of one state of the data.", "quantifier": "all runs of a group, all seconds the two reads fall into", "why_tests_cant": "the reads of one second all go to one server, so that a test rarely sees two", "anchors": ["src/apiserver/internal/usecase/service/meta_service.go:52-69", "src/apiserver/internal/usecase/componet/selector/random_selector.go:24-27"]}
{"id": "C152", "title": "A command line asks the server for what it says, or for nothing", "statement": "A command typed for a metadata or data server asks that server for exactly the servers, slots and indexes written on the line; a line that is malformed changes nothing.", "quantifier": "all command lines, all groups of servers, all members and failures of the library", "why_tests_cant": "tests type well-formed lines; the effect of a malformed part shows in the group only afterwards", "anchors": ["src/common/cmd/cmd.go:35-55", "src/metaserver/cmd/raft/raft.go:17-186", "src/metaserver/cmd/hashslot/hashslot.go:17-74", "src/objectserver/cmd/rpc/rpc.go:19-63"]}
{"id": "C153", "title": "How a command ends tells whether it was done", "statement": "A command process ends with status 0 exactly if the server did what was asked; no line makes it panic.", "quantifier": "all command lines and answers", "why_tests_cant": "scripts that check the status are outside of the tests of the repository", "anchors": ["src/common/cmd/cmd.go:35-55", "src/metaserver/cmd/raft/raft.go:59-186", "src/objectserver/cmd/rpc/rpc.go:34-63"]}
{"id": "C154", "title": "A data server told to leave has moved everything, or can be told again", "statement": "A data server told to leave answers success exactly if all its files are with others; after a failure it can be told again. A data server told to join answers success if it joined.", "quantifier": "all capacities of servers, files, failures of transfers, closing and discovery", "why_tests_cant": "needs several servers with full disks and failing transfers", "anchors": ["src/objectserver/internal/controller/grpc/migration_server.go:87-156", "src/objectserver/internal/usecase/service/migration_service.go:60-130"]}
{"id": "C155", "title": "What a data server stores lies in its storage directory, one file per name", "statement": "Whatever name a request to a data server has (PUT/GET/DELETE /objects/:name over HTTP, FileName of ReceiveData over gRPC), the file read, written or removed is the entry of exactly that name in the storage directory of one of the server's drives; different names are different files, and a name is looked for where it was written.", "quantifier": "for all configurations of storage path and server id, all drives, all names and all states of files, index and cache", "why_tests_cant": "tests use names the API servers make; whether '.', '..' or a name with slashes leads outside depends on how paths are joined and cleaned, for all names at once", "anchors": ["src/objectserver/internal/usecase/service/objects_service.go:49-106", "src/objectserver/internal/usecase/service/migration_service.go:318-336", "src/objectserver/internal/usecase/component/driver_manager.go:107-115", "src/objectserver/config/config.go:52-60"]}
{"id": "C156", "title": "Unfinished uploads are apart from objects", "statement": "No request about an object on a data server reads, changes or removes an unfinished upload, and no object name reads one of the marks the server keeps in its cache.", "quantifier": "for all object names, upload ids, records and data, on all servers", "why_tests_cant": "tests never ask for an object under the id of an upload or the key of a mark", "anchors": ["src/objectserver/config/config.go:52-60", "src/objectserver/internal/controller/http/objects/objects_cache.go:11-22", "src/objectserver/internal/controller/http/temp/temp_rest.go:44-61", "src/objectserver/internal/usecase/service/objects_service.go:23-46"]}
{"id": "C157", "title": "A data server that takes over files survives it", "statement": "Whatever lies in the storage directory of a leaving data server, the server that takes a file over answers the call: with success exactly if the file is there with the size told, it is registered and more than half of the metadata servers took the new location, and it keeps running.", "quantifier": "for all files and names, all ways to cut them into messages, all receivers and any number of failing metadata servers", "why_tests_cant": "a leave is tested with finished objects only; that an upload left open at that moment ends the other server needs the files of both servers and the panic of a gRPC call together", "anchors": ["src/objectserver/internal/usecase/service/migration_service.go:163-316", "src/objectserver/internal/controller/grpc/migration_server.go:30-70"]}
{"id": "C158", "title": "space-first writes to the servers with the most free space", "statement": "With the strategy space-first the n data servers chosen for an upload are those with the most free space; servers that do not answer are chosen last.", "quantifier": "for all sets of servers, all histories of earlier choices, all answers of the servers and all n", "why_tests_cant": "a test sees one choice with one filling; that the choice is by stored bytes, up to a minute old, and puts servers that joined since last needs all histories", "anchors": ["src/apiserver/internal/usecase/componet/selector/space_first_selector.go:24-80", "src/apiserver/internal/usecase/logic/discovery_logic.go:35-46"]}
{"id": "C159", "title": "io-first writes to the servers with the lightest load", "statement": "With the strategy io-first the n data servers chosen for an upload are those whose drives have the smallest weighted time of I/O; servers that do not tell it are chosen last.", "quantifier": "for all sets of servers, all loads of 64 bits, all histories of earlier choices and all n", "why_tests_cant": "the load grows from the start of the machine; a test never runs until it leaves 31 bits", "anchors": ["src/apiserver/internal/usecase/componet/selector/weighted_io_first.go:29-66", "src/common/util/util.go:163-165", "src/objectserver/internal/controller/http/stat/stat.go:15-24"]}
{"id": "C160", "title": "The report of a server tells its disks", "statement": "The report of a server has the averages of the counters over all drives and the sizes of its file system, and making one never harms the server.", "quantifier": "for all lists of drives and all numbers the kernel tells", "why_tests_cant": "the machines of tests have drives, and their times are not compared", "anchors": ["src/common/system/disk/stat.go:32-59", "src/common/system/disk/stat_linux.go:36-61", "src/common/system/system_info.go:27-50"]}
{"id": "C161", "title": "Reports are of servers that run", "statement": "A report is in etcd while its server runs with a lease, is gone after the server stops, and after a crash goes with the lease.", "quantifier": "for all sequences of leases granted and lapsed, ticks, stops and crashes", "why_tests_cant": "the order of the first tick and the first lease and a crash in between is not under control of a test", "anchors": ["src/common/system/syncer.go:27-68", "src/common/registry/etcd_lifecycle.go:32-61"]}
{"id": "C162", "title": "A page of the metadata server that tells success did what was asked", "statement": "A request to the metadata server over HTTP answered with 2xx did what it asked for: a record or version is stored as sent, changed or gone; after any other answer nothing has changed; pages that read change nothing.", "quantifier": "for all data of the server, all requests, names and bodies, alone and in a group", "why_tests_cant": "tests send bodies that can be read, about objects that do not exist yet", "anchors": ["src/metaserver/internal/controller/http/metadata_rest.go:30-85", "src/metaserver/internal/controller/http/version_rest.go:30-121", "src/metaserver/internal/controller/http/bucket_rest.go:30-86", "src/metaserver/internal/usecase/service/metadata_service.go:26-176"]}
{"id": "C163", "title": "A version is read, changed and removed over HTTP under its own number only", "statement": "A request with a version number reads, changes or removes the version with that number and no other; a request whose version is no number of a version does none of it.", "quantifier": "for all data of the server, all names and all texts given as number", "why_tests_cant": "a test asks for a few numbers; texts that are no numbers and numbers below zero are not tried", "anchors": ["src/metaserver/internal/controller/http/version_rest.go:45-74", "src/metaserver/internal/controller/http/version_rest.go:111-121", "src/common/request/request.go:20-25", "src/common/util/util.go:130-139", "src/metaserver/internal/usecase/service/metadata_service.go:92-167"]}
{"id": "C164", "title": "A record is kept under the id of the object it names", "statement": "Whatever is sent to the metadata server over HTTP, the record kept under an id has the bucket and the name that make up that id.", "quantifier": "for all data for which it holds and all requests", "why_tests_cant": "tests send bodies that agree with their paths", "anchors": ["src/metaserver/internal/controller/http/metadata_rest.go:30-51", "src/metaserver/internal/usecase/logic/metadata_logic.go:77-97"]}
{"id": "C165", "title": "A malformed request to the metadata server is answered with 400", "statement": "A request with a body that cannot be read, breaks a rule, or with page, size or version that make no sense is answered with 400 and changes nothing; a page of versions has the versions it should.", "quantifier": "for all data of the server and all requests", "why_tests_cant": "the ways to be malformed are without end; negative pages, sizes near the largest number and broken JSON are not tried", "anchors": ["src/metaserver/internal/controller/http/metadata_rest.go:30-76", "src/metaserver/internal/controller/http/version_rest.go:30-109", "src/metaserver/internal/usecase/repo/metadata_repo.go:240-269", "src/metaserver/internal/usecase/service/metadata_service.go:169-176"]}
{"id": "C166", "title": "A token continues only the upload it was given out for", "statement": "A request that continues a resumable upload saves a version of the bucket, name, hash and size the upload was begun with, at the servers selected then, and only when all bytes have come and the digest is right; nobody saves a version without an upload begun at the server.", "quantifier": "for all tokens a client may send, all ranges, bodies and answers of other servers", "why_tests_cant": "tests send tokens they were given; whoever makes one of their own is not tried", "anchors": ["src/apiserver/internal/controller/http/big_api.go:87-202", "src/apiserver/internal/usecase/service/rs_resumable_stream.go:11-82"]}
{"id": "C167", "title": "Only the servers of an upload are asked for a client", "statement": "With a token of a resumable upload the server asks only data servers that were selected for the upload, for the pieces they gave.", "quantifier": "for all tokens a client may send, all ranges, bodies and answers", "why_tests_cant": "tests send tokens they were given", "anchors": ["src/apiserver/internal/controller/http/big_api.go:117-156", "src/apiserver/internal/usecase/service/rs_resumable_stream.go:22-77", "src/apiserver/internal/usecase/webapi/object_server.go:14-130"]}
{"id": "C168", "title": "A request with a token is answered and the server goes on", "statement": "Whatever the token, range and body of a request are, it is answered after finitely many steps and the server keeps running.", "quantifier": "for all tokens, ranges, bodies, answers of other servers and orders of goroutines", "why_tests_cant": "tokens that decode but make no sense are not tried, and a panic in a goroutine ends the test too", "anchors": ["src/apiserver/internal/controller/http/big_api.go:117-202", "src/apiserver/internal/usecase/service/rs_encoder.go:19-110", "src/apiserver/internal/usecase/service/rs_put_stream.go:40-68", "src/apiserver/internal/usecase/webapi/object_server.go:51-71"]}
{"id": "C169", "title": "A record written and read back is the same record", "statement": "Decoding what was encoded from a record gives that record, into whatever record it is decoded and whatever bytes follow; different records have different bytes, none of which begin those of another.", "quantifier": "for all records with fields in the ranges of their types and texts and lists shorter than 2^32, all records read into, all bytes behind", "why_tests_cant": "tests encode a few records; widths of numbers and lengths change the form of the bytes at many borders", "anchors": ["src/common/proto/msg/metadata_gen.go:241-390", "src/common/proto/msg/metadata_gen.go:750-888", "src/common/proto/msg/metadata_gen.go:1134-1283", "src/metaserver/internal/entity/raft_data_gen.go:328-490", "src/common/hashslot/slot_info_gen.go:113-190", "src/apiserver/internal/usecase/componet/auth/credential/admin_credential_gen.go:77-129", "src/common/system/disk/model_gen.go:241-364", "src/common/system/disk/model_gen.go:536-654", "src/common/system/mem/model_gen.go:109-179", "src/common/system/cpu/model_gen.go:93-154", "src/common/system/system_info_gen.go:189-335", "src/common/util/util.go:194-209"]}
{"id": "C170", "title": "Records are read by the names of their fields", "statement": "Decoding succeeds exactly for bytes that begin with a MessagePack map whose known fields have values of their types: any order of fields, any width of numbers, fields of unknown names passed over with all inside them, absent fields left as they were.", "quantifier": "for all bytes and all records read into", "why_tests_cant": "there are endlessly many encodings of one record, and a test has those of the own encoder", "anchors": ["src/common/proto/msg/metadata_gen.go:241-390", "src/common/proto/msg/metadata_gen.go:750-888", "src/common/proto/msg/metadata_gen.go:1134-1283", "src/metaserver/internal/entity/raft_data_gen.go:328-490", "src/common/hashslot/slot_info_gen.go:113-190", "src/apiserver/internal/usecase/componet/auth/credential/admin_credential_gen.go:77-129", "src/common/system/disk/model_gen.go:241-364", "src/common/system/disk/model_gen.go:536-654", "src/common/system/mem/model_gen.go:109-179", "src/common/system/cpu/model_gen.go:93-154", "src/common/system/system_info_gen.go:189-335", "src/common/util/util.go:194-209"]}
{"id": "C171", "title": "Bytes that are no record are refused cheaply", "statement": "A record cut short is refused, a record that is read has its fields in the ranges of their types, and decoding makes room for no more strings than there are bytes.", "quantifier": "for all bytes and all records read into", "why_tests_cant": "tests decode what was encoded; damaged and made-up bytes are not tried", "anchors": ["src/common/proto/msg/metadata_gen.go:1177-1283", "src/common/proto/msg/metadata_gen.go:284-390", "src/metaserver/internal/entity/raft_data_gen.go:380-490", "src/common/hashslot/slot_info_gen.go:132-190"]}
{"id": "C172", "title": "A metadata server can always be started again, and bring others up to date", "statement": "Whatever fails while snapshots are written, the snapshots and log entries on disk are enough for the process to start again and for a server without anything to be brought up to date.", "quantifier": "for all sequences of entries, snapshots with any failure, crashes and starts, all data and all numbers of entries kept behind a snapshot", "why_tests_cant": "it takes a failing read of the database while a snapshot is written, thousands of entries and a later restart", "anchors": ["src/metaserver/internal/usecase/raftimpl/fsm_impl.go:166-200", "src/metaserver/internal/usecase/raftimpl/raft_impl.go:46-59", "src/metaserver/internal/usecase/raftimpl/raft_impl.go:110-126", "src/metaserver/internal/usecase/repo/metadata_repo.go:304-328"]}
{"id": "C173", "title": "After a restart the data is that of the entries applied", "statement": "However a metadata server is stopped and started, its data is that of the entries applied so far, and every snapshot holds exactly the entries up to its number.", "quantifier": "for all sequences of entries, snapshots, crashes and starts", "why_tests_cant": "tests apply a log once; restarts with and without a snapshot at every point are not tried", "anchors": ["src/metaserver/internal/usecase/raftimpl/fsm_impl.go:166-200", "src/metaserver/internal/usecase/raftimpl/raft_impl.go:46-59", "src/metaserver/internal/usecase/raftimpl/raft_impl.go:110-126", "src/metaserver/internal/usecase/repo/metadata_repo.go:304-328", "src/metaserver/internal/usecase/raftimpl/fsm_impl.go:94-119"]}
{"id": "C174", "title": "An upload told as stored is stored whole", "statement": "When the data of an upload is told as stored, every data server of it holds the piece of the body meant for it, whole, the body was not broken off and is that of its digest; so reading it back gives the body.", "quantifier": "for all bodies and cuttings of them into writes, all numbers of servers and block sizes, every request to every server failing before or after it is done, and every choice of the worker group", "why_tests_cant": "it takes a request that fails at one server in the moment the others are finished, so that the error is not looked at", "anchors": ["src/apiserver/internal/usecase/service/object_service.go:196-232", "src/apiserver/internal/usecase/service/rs_put_stream.go:14-68", "src/apiserver/internal/usecase/service/rs_encoder.go:29-112", "src/apiserver/internal/usecase/service/copy_put_stream.go:19-113", "src/apiserver/internal/usecase/service/put_stream.go:21-68", "src/common/util/done_group.go:50-126", "src/apiserver/internal/usecase/webapi/object_server.go:31-98"]}
{"id": "C175", "title": "A failed upload leaves nothing at the data servers", "statement": "After an upload that is not told as stored no data server that answers holds an object or a temporary file of it.", "quantifier": "for all bodies, numbers of servers, block sizes and all failures of requests", "why_tests_cant": "tests do not make single requests of an upload fail, and do not look at the disks of the other servers afterwards", "anchors": ["src/apiserver/internal/usecase/service/object_service.go:196-232", "src/apiserver/internal/usecase/service/rs_put_stream.go:14-68", "src/apiserver/internal/usecase/service/rs_encoder.go:29-112", "src/apiserver/internal/usecase/service/copy_put_stream.go:19-113", "src/apiserver/internal/usecase/service/put_stream.go:21-68", "src/common/util/done_group.go:50-126", "src/apiserver/internal/usecase/webapi/object_server.go:31-98"]}
{"id": "C176", "title": "The answer to an upload tells what was wrong", "statement": "A right body is stored if the servers answer; a body is called invalid only if it broke off or differs from its digest.", "quantifier": "for all bodies, digests, numbers of servers, block sizes and failures of requests", "why_tests_cant": "the status of an upload during which a data server fails depends on the configuration and on when it fails", "anchors": ["src/apiserver/internal/usecase/service/object_service.go:196-232", "src/apiserver/internal/usecase/service/rs_put_stream.go:14-68", "src/apiserver/internal/usecase/service/rs_encoder.go:29-112", "src/apiserver/internal/usecase/service/copy_put_stream.go:19-113", "src/apiserver/internal/usecase/service/put_stream.go:21-68", "src/common/util/done_group.go:50-126", "src/apiserver/internal/usecase/webapi/object_server.go:31-98", "src/common/util/crypto/crypto.go:13-20"]}
{"id": "C177", "title": "Requests that store one object at once leave it whole", "statement": "What a data server keeps under the name of an object is that object, or nothing, however the requests that store it overlap.", "quantifier": "for all contents, all numbers of requests, all cuttings of their writes and every order of their steps", "why_tests_cant": "the check for an existing file and the writes of two requests must interleave, and the result has the right length", "anchors": ["src/objectserver/internal/usecase/service/objects_service.go:82-106", "src/objectserver/internal/usecase/service/objects_service.go:229-326"]}
{"id": "C178", "title": "Storing that is told as done is done", "statement": "A request to store an object at a data server that is told success leaves the whole object readable.", "quantifier": "for all contents, all numbers of requests, every order of their steps and every point where one breaks off", "why_tests_cant": "a second request must come while the first one writes, or after it broke off", "anchors": ["src/objectserver/internal/usecase/service/objects_service.go:82-106", "src/objectserver/internal/usecase/service/objects_service.go:229-326"]}
{"id": "C179", "title": "No temporary file outlives its upload", "statement": "When the entry of an upload is gone and its notification is handled, the temporary file is gone.", "quantifier": "for all numbers of PATCH, PUT and DELETE requests of one upload, every order of their steps, the expiry and the cleaner", "why_tests_cant": "the cleaner must run between the check of a PATCH and its opening of the file", "anchors": ["src/objectserver/internal/usecase/service/objects_service.go:229-326", "src/objectserver/internal/usecase/service/temp_service.go:20-62", "src/objectserver/internal/controller/http/temp/temp_rest.go:19-81", "src/objectserver/internal/controller/http/temp/temp_mid.go:10-15"]}
{"id": "C180", "title": "Addresses of console pages lead to those pages", "statement": "A browser that asks the admin server for a page of the console by its address shows that page with the parameters of the address.", "quantifier": "for all addresses and queries, and all sets of embedded files", "why_tests_cant": "a test opens a few pages; addresses with escaped characters are needed", "anchors": ["src/adminserver/internal/controller/http_server.go:45-54", "src/adminserver/ui/src/pages/index.vue:96-103"]}
{"id": "C181", "title": "The console and the API of the admin server stay apart", "statement": "Requests below /api are never answered with a file or a redirect to the console, handlers are reached only there, and only embedded files are sent, never directories.", "quantifier": "for all paths, methods and sets of embedded files", "why_tests_cant": "tests use the files of one build", "anchors": ["src/adminserver/resource/embed.go:21-63", "src/adminserver/internal/controller/http_server.go:20-56"]}
{"id": "C182", "title": "Files of the console arrive as they are", "statement": "Every embedded file is sent with its bytes, whole or the range asked for, except config.js which tells the port of the server.", "quantifier": "for all files, ranges and ports", "why_tests_cant": "browsers ask for ranges of scripts rarely, and the tested build has no other file whose name ends in config.js", "anchors": ["src/adminserver/resource/embed.go:21-27", "src/adminserver/resource/configjs.go:14-40"]}
{"id": "C183", "title": "The console works from another origin", "statement": "Every request the console makes is allowed by the answer to the browser's question for another origin, and it may read the headers it needs.", "quantifier": "for all routes of the admin server", "why_tests_cant": "tests have no browser; the origin is the same unless the console is served from elsewhere", "anchors": ["src/adminserver/internal/controller/http_server.go:29-36", "src/adminserver/internal/controller/http/metadata.go:21-35", "src/adminserver/ui/src/api/base.js:4-14"]}
{"id": "C184", "title": "Requests of the console reach what they name", "statement": "Each request of the console reaches its route in the admin server with the bucket, object and server it was made for.", "quantifier": "for all names", "why_tests_cant": "names with characters that mean something in a URL are needed", "anchors": ["src/adminserver/ui/src/api/metadata.ts:1-75", "src/adminserver/ui/src/api/objects.ts:1-40", "src/adminserver/ui/src/api/server-stat.ts:1-27", "src/adminserver/internal/controller/http/metadata.go:21-35", "src/adminserver/internal/controller/http/object.go:20-27"]}
{"id": "C185", "title": "A client gets a version only of content that it sent", "statement": "Whatever the data servers hold was sent in full by a request that announced it, and a request that is answered with a version sent content of the announced size and digest itself.", "quantifier": "for all interleavings of uploads and other calls, all announced digests and sizes", "why_tests_cant": "tests upload the content they announce; here a client announces the digest of somebody else's object", "anchors": ["src/apiserver/internal/usecase/service/object_service.go:146-170", "src/apiserver/internal/usecase/service/object_service.go:196-232", "src/apiserver/internal/controller/http/big_api.go:63-80"]}
{"id": "C186", "title": "Data servers answer what they are asked over etcd", "statement": "Every question for a piece is answered once by each server storing it, so that an object of which every piece is stored is found.", "quantifier": "for all servers, stored pieces, requests and interleavings of questions, answers and interruptions", "why_tests_cant": "needs watches that stop between two questions, and particular interleavings of many requests", "anchors": ["src/objectserver/internal/usecase/service/locate.go:37-99", "src/apiserver/internal/usecase/service/object_service.go:65-109"]}
{"id": "C187", "title": "Locating leaves nothing behind in etcd", "statement": "Once a request has deleted its key the key is not in etcd any more.", "quantifier": "for all servers, stored pieces, requests and interleavings", "why_tests_cant": "the answer must arrive after the deletion; nobody looks at leftover keys", "anchors": ["src/apiserver/internal/usecase/service/object_service.go:65-109", "src/objectserver/internal/usecase/service/locate.go:85-99"]}
{"id": "C188", "title": "Finding by hash is right beside writes", "statement": "However a search by content interleaves with writes and other searches, it answers only versions that were stored with that content while it ran, it misses none that was stored all the time, and no search makes a stored version impossible to find later.", "quantifier": "for all executions of any number of searches and of writes, interleaved transaction by transaction", "why_tests_cant": "needs a write between two particular transactions of one search", "anchors": ["src/metaserver/internal/usecase/service/metadata_service.go:205-229", "src/metaserver/internal/usecase/repo/hash_index_repo.go:16-27", "src/metaserver/internal/usecase/logic/hash_index_logic.go:20-58"]}
{"id": "C189", "title": "Uploads at once keep the versions promised and no more", "statement": "However uploads of one object interleave, fail half-way or leave their background removal undone: each is given a number of its own, what is stored under it is what it sent, its version or a newer one stays stored, at least as many versions stay as the bucket promises (or as were ever uploaded), and when all are through no more than that stay.", "quantifier": "for all executions of any number of uploads, interleaved request by request, with failures", "why_tests_cant": "needs two uploads to read the same numbers before either removes", "anchors": ["src/apiserver/internal/usecase/service/object_service.go:111-194", "src/apiserver/internal/controller/http/big_api.go:222-272", "src/apiserver/internal/usecase/service/meta_service.go:22-30"]}
{"id": "C190", "title": "Requests continuing one upload at once store the object that was sent", "statement": "When several requests carry on the same resumable upload, each with what the object has at the offset it names: whenever one is answered with 200, every stored file is that of the object; one upload gives one version, and no request takes the files from another.", "quantifier": "for all objects, numbers of servers, requests and interleavings of their commands, with files expiring", "why_tests_cant": "needs a second request that begins between the first one's look at the size and its appends", "anchors": ["src/apiserver/internal/controller/http/big_api.go:137-203", "src/apiserver/internal/usecase/service/rs_resumable_stream.go:64-77", "src/objectserver/internal/controller/http/temp/temp_rest.go:19-106"]}
{"id": "C191", "title": "Sharing one buffer for shards and cache does not mix up bytes", "statement": "The decoder keeps its cache and the shards it reads in one buffer. Whatever the buffer holds, however the bytes of the shards arrive and wherever the library puts restored shards, a reader gets the bytes and the outcome of a decoder with separate memory; what the repair writers hold is not changed by later reads.", "quantifier": "for all codes, configurations, readers, orders of chunks, buffers and sizes of reads", "why_tests_cant": "depends on overlapping memory and on the order in which goroutines fill it", "anchors": ["src/apiserver/internal/usecase/service/rs_decoder.go:26-38", "src/apiserver/internal/usecase/service/rs_decoder.go:44-137"]}
{"id": "C192", "title": "A download that has ended leaves nobody sending", "statement": "When a download has ended, whether at the end of the object, by an error or because the client went away, no data server and no API server is still sending for it, and no goroutine or file is left over from opening it.", "quantifier": "for all objects, configurations, windows, sequences of seeks and reads, and answers of the servers", "why_tests_cant": "a test sees the bytes that arrive and not the streams that stay open behind it", "anchors": ["src/apiserver/internal/usecase/service/rs_get_stream.go:27-72", "src/apiserver/internal/usecase/service/rs_get_stream.go:113-139", "src/apiserver/internal/usecase/service/get_stream.go:34-83", "src/apiserver/internal/usecase/service/copy_get_stream.go:45-69", "src/adminserver/internal/controller/http/object.go:45-65"]}
{"id": "C193", "title": "An error is mailed once, and the mail says what happened", "statement": "When mail is configured, every line logged as an error or graver is mailed once to the configured address and no other line is; the page of the mail shows the line as it was logged and nothing else, whoever caused the line and whatever is in it.", "quantifier": "for all configurations, levels, log lines, requests, and sequences of log lines, ends of sending goroutines and ends of the process", "why_tests_cant": "a test logs a harmless text and sees one mail; it does not send markup for a version, and its process does not end while a mail is on its way", "anchors": ["src/common/logs/error_hook.go:10-48", "src/common/logs/logs.go:36-77", "src/common/response/response.go:110-137", "src/apiserver/internal/controller/http/metadata_api.go:28-37"]}
{"id": "C194", "title": "A server runs with the settings it is given", "statement": "Each setting of the four servers has the value its environment variable gives, else the value of the configuration file, else its default; required settings must be there; no two settings share a key or a variable.", "quantifier": "all files, environments and all settings of the API, metadata, data and admin server", "why_tests_cant": "A test reads one file; which of the hundred settings ignore a value of the file shows only when every setting is tried with its zero value.", "anchors": ["src/apiserver/config/config.go:21-123", "src/metaserver/config/config.go:23-106", "src/objectserver/config/config.go:19-71", "src/adminserver/config/config.go:15-48", "src/apiserver/internal/usecase/service/copy_fix_stream.go:39-49"]}
{"id": "C195", "title": "A metadata server of a group starts and keeps to the timeouts given", "statement": "A metadata server with raft switched on starts with any heartbeat and election timeouts in order, and raft runs with them.", "quantifier": "all timeouts, files and environments", "why_tests_cant": "The limits are in the library's check against its own lease of 500ms and in the defaults of the other timeout; tests use the defaults.", "anchors": ["src/metaserver/config/config.go:86-91", "src/metaserver/internal/usecase/raftimpl/raft_impl.go:39-60"]}
{"id": "C196", "title": "Block sizes are raised to whole packets", "statement": "When the API server starts, the block size of erasure coding and of copies is raised to the least whole number of network packets, never lowered.", "quantifier": "all configured sizes and numbers of shards", "why_tests_cant": "Depends on divisibility; the default of 4 shards divides.", "anchors": ["src/apiserver/config/config.go:34-45"]}
{"id": "C197", "title": "Lost shards are stored before a block is handed over, if that is asked for", "statement": "With rewrite-async off, a block whose lost shards are restored is handed to the reader only after they were written to their new places, and a failure of that is reported.", "quantifier": "all lost shards, all interleavings of the goroutines, all failures", "why_tests_cant": "A matter of which goroutine runs first.", "anchors": ["src/apiserver/internal/usecase/service/rs_decoder.go:99-136"]}
{"id": "C198", "title": "A plan to join or leave is made of what the servers store", "statement": "The capacities a data server plans with are exactly the stored bytes of the discovered servers that answer, each once and without itself.", "quantifier": "all discovered addresses, all servers and their answers", "why_tests_cant": "A test has servers that answer properly; the wrong figure comes from an answer that is no proper one.", "anchors": ["src/objectserver/internal/usecase/service/migration_service.go:45-63", "src/objectserver/internal/controller/http/stat/stat.go:15-24"]}
{"id": "C199", "title": "After a join the servers hold fair shares", "statement": "After a data server has joined, every file is on one server as before, and no server holds more than the fair share of the bytes and some files; the answer tells whether that is so.", "quantifier": "all servers, files and sizes, all outcomes of transfers", "why_tests_cant": "The share depends on all servers together; an even group of test servers does not show the excess.", "anchors": ["src/objectserver/internal/controller/grpc/migration_server.go:72-156", "src/objectserver/internal/usecase/service/migration_service.go:66-262"]}
{"id": "C200", "title": "A deleted bucket takes its objects with it", "statement": "After a bucket is deleted nothing can be stored into it or read from it, and a bucket created is empty and has just the settings it was created with.", "quantifier": "all histories of uploads and removals, all buckets, objects and versions", "why_tests_cant": "A test deletes an empty bucket or looks at the bucket itself; the objects left behind show only to a reader or in a later bucket of the same name.", "anchors": ["src/metaserver/internal/usecase/logic/bucket_logic.go:63-92", "src/apiserver/internal/usecase/service/object_service.go:111-194", "src/apiserver/internal/controller/http/objects_api.go:58-94"]}
{"id": "C201", "title": "Bytes are kept as long as a version needs them and no longer", "statement": "Removing objects, versions or buckets never takes the bytes of another version, and bytes no version refers to are given back.", "quantifier": "all histories of uploads and removals", "why_tests_cant": "Loss by removal depends on objects that share their content; bytes held for nothing show only over a long time.", "anchors": ["src/apiserver/internal/usecase/service/object_service.go:111-194", "src/apiserver/internal/usecase/webapi/object_server.go:14-29", "src/metaserver/internal/usecase/logic/metadata_logic.go:58-75", "src/metaserver/internal/usecase/logic/metadata_logic.go:199-220"]}
