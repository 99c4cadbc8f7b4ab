(** Model of the metadata server's store: object metadata, numbered versions,
    the two secondary indexes, buckets, the replicated log that changes them
    and the read paths.

    Source: src/metaserver/internal/usecase/logic/{metadata_logic,hash_index_logic,
    unique_id_index_logic,bucket_logic}.go, usecase/repo/{metadata_repo,
    batch_meta_repo,hash_index_repo,bucket_repo,batch_bucket_repo}.go,
    usecase/service/metadata_service.go, usecase/raftimpl/fsm_impl.go.

    Simplifications, all of them: a bolt bucket is a finite map with its keys in
    byte order; stored values are the records themselves (the msgp encoding is
    taken to be lossless); bolt's limits on key and value sizes and I/O errors
    are left out, its refusal of empty keys is kept; the clock is a parameter
    (the time stamps of a request are part of the request). *)
From Verif Require Import Str_Model.
From stdpp Require Import gmap.

(** ** Records *)

(** src/common/proto/msg/metadata.go 17-23 ([Extra] is never stored). *)
Record metadata := mk_metadata {
  m_name : str; m_bucket : str; m_ctime : Z; m_utime : Z }.

(** src/common/proto/msg/metadata.go 29-41. *)
Record version := mk_version {
  v_compress : bool; v_strategy : Z; v_ds : Z; v_ps : Z; v_shard : Z; v_size : Z;
  v_ts : Z; v_seq : N; v_hash : str; v_uid : str; v_locate : list str }.

(** src/common/proto/msg/metadata.go 47-59. *)
Record bucket := mk_bucket {
  b_versioning : bool; b_readonly : bool; b_compress : bool; b_strategy : Z;
  b_ds : Z; b_ps : Z; b_remains : Z; b_ctime : Z; b_utime : Z;
  b_name : str; b_policies : list str }.

(** [data.Sequence = n] (metadata_logic.go 177, fsm_impl.go 80). *)
Definition with_seq (n : N) (v : version) : version :=
  mk_version (v_compress v) (v_strategy v) (v_ds v) (v_ps v) (v_shard v) (v_size v)
             (v_ts v) n (v_hash v) (v_uid v) (v_locate v).

(** [data.UniqueId, data.Sequence, data.Hash = origin...] (metadata_logic.go 236-238). *)
Definition keep_identity (origin v : version) : version :=
  mk_version (v_compress v) (v_strategy v) (v_ds v) (v_ps v) (v_shard v) (v_size v)
             (v_ts v) (v_seq origin) (v_hash origin) (v_uid origin) (v_locate v).

(** [data.Bucket, data.CreateTime = origin...] (metadata_logic.go 89-90). *)
Definition keep_meta (origin d : metadata) : metadata :=
  mk_metadata (m_name d) (m_bucket origin) (m_ctime origin) (m_utime d).

(** [data.CreateTime = origin.CreateTime] (bucket_logic.go 108). *)
Definition keep_ctime (origin b : bucket) : bucket :=
  mk_bucket (b_versioning b) (b_readonly b) (b_compress b) (b_strategy b)
            (b_ds b) (b_ps b) (b_remains b) (b_ctime origin) (b_utime b)
            (b_name b) (b_policies b).

(** usecase/errors.go 8-15; [EBolt] stands for any error of the bolt library,
    [EEmpty] for the ["version doesn't contains ..."] / ["empty primary key"] errors. *)
Inductive err := ENotFound | EExists | EOldData | ENilData | EUnknownLog | EEmpty | EBolt.

(** ** The database *)

(** One version bucket: bolt's sequence counter and key -> version. *)
Record vbucket := mk_vbucket { vb_seq : N; vb_map : gmap str version }.

(** The bolt file: bucket "go.dfs.metadata.root" (metadata_logic.go 17), the
    nested buckets of "go.dfs.version.root" (18), the index buckets
    "go.dfs.index.hashIndex" (hash_index_logic.go 13, 79-91) and
    "go.dfs.index.uniqueIdIndex" (unique_id_index_logic.go 11), and
    "go.dfs.bucket.root" (bucket_logic.go 13). *)
Record db := mk_db {
  d_meta : gmap str metadata;
  d_vers : gmap str vbucket;
  d_hash : gmap str (gset str);
  d_uid : gmap str (gset str);
  d_bkt : gmap str bucket }.

(** A freshly created bolt file. *)
Definition db_empty : db := mk_db ∅ ∅ ∅ ∅ ∅.

Definition with_meta (m : gmap str metadata) (d : db) : db :=
  mk_db m (d_vers d) (d_hash d) (d_uid d) (d_bkt d).
Definition with_vers (m : gmap str vbucket) (d : db) : db :=
  mk_db (d_meta d) m (d_hash d) (d_uid d) (d_bkt d).
Definition with_hash (m : gmap str (gset str)) (d : db) : db :=
  mk_db (d_meta d) (d_vers d) m (d_uid d) (d_bkt d).
Definition with_uid (m : gmap str (gset str)) (d : db) : db :=
  mk_db (d_meta d) (d_vers d) (d_hash d) m (d_bkt d).
Definition with_bkt (m : gmap str bucket) (d : db) : db :=
  mk_db (d_meta d) (d_vers d) (d_hash d) (d_uid d) m.

(** A transaction function: a new database or an error. *)
Definition txres := (db + err)%type.

(** [fmt.Sprint(name, Sep, seq)] (metadata_logic.go 150, 178, 201, 225, 323). *)
Definition vkey (name : str) (n : N) : str := name ++ "."%char :: print_N n.

(** bolt [Bucket.NextSequence]: a uint64 counter. *)
Definition next_seq (b : vbucket) : N := ((vb_seq b + 1) mod 2 ^ 64)%N.

(** ** Indexes *)

(** [AddIndex] (hash_index_logic.go 20-29, unique_id_index_logic.go 20-29):
    bolt refuses an empty bucket name. *)
Definition idx_add (h key : str) (m : gmap str (gset str)) : option (gmap str (gset str)) :=
  match h with
  | [] => None
  | _ => Some (<[ h := {[ key ]} ∪ default ∅ (m !! h) ]> m)
  end.

(** [RemoveIndex] (hash_index_logic.go 31-39, unique_id_index_logic.go 31-39). *)
Definition idx_remove (h key : str) (m : gmap str (gset str)) : gmap str (gset str) :=
  match m !! h with
  | Some s => <[ h := s ∖ {[ key ]} ]> m
  | None => m
  end.

(** [GetIndex] (hash_index_logic.go 41-58, unique_id_index_logic.go 41-58), as a set. *)
Definition idx_get (h : str) (m : gmap str (gset str)) : gset str := default ∅ (m !! h).

(** [ExistsByUniqueId] (metadata_logic.go 127-136): an index entry exists. *)
Definition uid_exists (d : db) (u : str) : bool := negb (bool_decide (idx_get u (d_uid d) = ∅)).

(** ** Object metadata *)

(** [CreateVersionBucket] (metadata_logic.go 279-288): refuses an existing and an
    unnamed bucket. *)
Definition create_version_bucket (id : str) (d : db) : txres :=
  match id with
  | [] => inr EBolt
  | _ => match d_vers d !! id with
         | Some _ => inr EBolt
         | None => inl (with_vers (<[ id := mk_vbucket 0 ∅ ]> (d_vers d)) d)
         end
  end.

(** [RemoveVersionBucket] (metadata_logic.go 290-292): bolt refuses a missing bucket. *)
Definition remove_version_bucket (id : str) (d : db) : txres :=
  match d_vers d !! id with
  | None => inr EBolt
  | Some _ => inl (with_vers (delete id (d_vers d)) d)
  end.

(** [AddMeta] (metadata_logic.go 34-56). *)
Definition add_meta (id : str) (data : metadata) (d : db) : txres :=
  match d_meta d !! id with
  | Some _ => inr EExists
  | None =>
      match create_version_bucket id d with
      | inr e => inr e
      | inl d' => inl (with_meta (<[ id := data ]> (d_meta d')) d')
      end
  end.

(** [RemoveMeta] (metadata_logic.go 58-75): a missing version bucket is ignored. *)
Definition remove_meta (id : str) (d : db) : txres :=
  match d_meta d !! id with
  | None => inl d
  | Some _ =>
      let d1 := with_meta (delete id (d_meta d)) d in
      match remove_version_bucket id d1 with
      | inr _ => inl d1
      | inl d2 => inl d2
      end
  end.

(** [UpdateMeta] (metadata_logic.go 77-97). *)
Definition update_meta (id : str) (data : metadata) (d : db) : txres :=
  match d_meta d !! id with
  | None => inr ENotFound
  | Some origin =>
      if (m_utime data <=? m_utime origin)%Z then inr EOldData
      else inl (with_meta (<[ id := keep_meta origin data ]> (d_meta d)) d)
  end.

(** ** Versions *)

(** [AddVerWithSequence] (metadata_logic.go 138-169): a version migrated from
    another server, carrying its number.  Line 162 adds the unique-id index
    entry under the content hash. *)
Definition add_ver_with_sequence (name : str) (data : version) (d : db) : txres :=
  match d_vers d !! name with
  | None => inr ENotFound
  | Some b =>
      if uid_exists d (v_uid data) then inr EExists
      else
        let sq := if (vb_seq b <? v_seq data)%N then v_seq data else vb_seq b in
        let key := vkey name (v_seq data) in
        match vb_map b !! key with
        | Some _ => inr EExists
        | None =>
            match idx_add (v_hash data) key (d_uid d) with
            | None => inr EBolt
            | Some ui =>
                match idx_add (v_hash data) key (d_hash d) with
                | None => inr EBolt
                | Some hi =>
                    inl (with_hash hi (with_uid ui
                           (with_vers (<[ name := mk_vbucket sq (<[ key := data ]> (vb_map b)) ]>
                                         (d_vers d)) d)))
                end
            end
        end
  end.

(** [AddVer] (metadata_logic.go 171-197): the number is bolt's next sequence. *)
Definition add_ver (name : str) (data : version) (d : db) : txres :=
  match d_vers d !! name with
  | None => inr ENotFound
  | Some b =>
      if uid_exists d (v_uid data) then inr EExists
      else
        let sq := next_seq b in
        let key := vkey name sq in
        match vb_map b !! key with
        | Some _ => inr EExists
        | None =>
            match idx_add (v_hash data) key (d_hash d) with
            | None => inr EBolt
            | Some hi =>
                match idx_add (v_uid data) key (d_uid d) with
                | None => inr EBolt
                | Some ui =>
                    inl (with_uid ui (with_hash hi
                           (with_vers (<[ name := mk_vbucket sq (<[ key := with_seq sq data ]> (vb_map b)) ]>
                                         (d_vers d)) d)))
                end
            end
        end
  end.

(** The number left in [data.Sequence] by [AddVer] (metadata_logic.go 173-177):
    unchanged when refused before line 177. *)
Definition add_ver_seq (name : str) (data : version) (d : db) : N :=
  match d_vers d !! name with
  | None => v_seq data
  | Some b => if uid_exists d (v_uid data) then v_seq data else next_seq b
  end.

(** [getVer] (metadata_logic.go 319-328) on the bucket of [name] ([GetVer], 250-257). *)
Definition get_ver (name : str) (n : N) (d : db) : option version :=
  match d_vers d !! name with
  | None => None
  | Some b => vb_map b !! vkey name n
  end.

(** [RemoveVer] (metadata_logic.go 199-220): line 215 removes the unique-id index
    entry under the content hash. *)
Definition remove_ver (name : str) (n : N) (d : db) : txres :=
  match d_vers d !! name with
  | None => inl d
  | Some b =>
      let key := vkey name n in
      match vb_map b !! key with
      | None => inr ENotFound
      | Some data =>
          inl (with_vers (<[ name := mk_vbucket (vb_seq b) (delete key (vb_map b)) ]> (d_vers d))
                 (with_uid (idx_remove (v_hash data) key (d_uid d))
                    (with_hash (idx_remove (v_hash data) key (d_hash d)) d)))
      end
  end.

(** [UpdateVer] (metadata_logic.go 222-248). *)
Definition update_ver (name : str) (data : version) (d : db) : txres :=
  match d_vers d !! name with
  | None => inr ENotFound
  | Some b =>
      let key := vkey name (v_seq data) in
      match vb_map b !! key with
      | None => inr ENotFound
      | Some origin =>
          if (v_ts data <=? v_ts origin)%Z then inr EOldData
          else inl (with_vers (<[ name := mk_vbucket (vb_seq b)
                                            (<[ key := keep_identity origin data ]> (vb_map b)) ]>
                                 (d_vers d)) d)
      end
  end.

(** [RemoveAllVersion] (metadata_repo.go 163-170, batch_meta_repo.go 67-76):
    delete the version bucket and create an empty one. *)
Definition remove_all_ver (name : str) (d : db) : txres :=
  match remove_version_bucket name d with
  | inr e => inr e
  | inl d' => create_version_bucket name d'
  end.

(** ** Buckets *)

(** [BucketCrud.Create] (bucket_logic.go 63-82). *)
Definition bkt_create (b : bucket) (d : db) : txres :=
  match b_name b with
  | [] => inr EEmpty
  | _ => match d_bkt d !! b_name b with
         | Some _ => inr EExists
         | None => inl (with_bkt (<[ b_name b := b ]> (d_bkt d)) d)
         end
  end.

(** [BucketCrud.Delete] (bucket_logic.go 84-92): bolt ignores a missing key. *)
Definition bkt_delete (name : str) (d : db) : txres :=
  inl (with_bkt (delete name (d_bkt d)) d).

(** [BucketCrud.Update] (bucket_logic.go 94-115). *)
Definition bkt_update (b : bucket) (d : db) : txres :=
  match b_name b with
  | [] => inr EEmpty
  | _ => match d_bkt d !! b_name b with
         | None => inr ENotFound
         | Some origin =>
             if (b_utime b <=? b_utime origin)%Z then inr EOldData
             else inl (with_bkt (<[ b_name b := keep_ctime origin b ]> (d_bkt d)) d)
         end
  end.

(** ** Transactions *)

(** bolt [DB.Update] / [DB.Batch]: an error rolls everything back.  [Batch] may run
    the function again after a rollback; the functions above do not depend on that. *)
Definition commit (d : db) (r : txres) : db * option err :=
  match r with inl d' => (d', None) | inr e => (d, Some e) end.

(** ** The replicated log *)

(** entity/raft_data.go 10-22 (log types and destinations; [Other] stands for any
    other value of the byte). *)
Inductive logtype := LInsert | LRemove | LUpdate | LMigrate | LOther.
Inductive dest := DVersion | DVersionAll | DMetadata | DBucket | DOther.

(** entity/raft_data.go 24-33; [rd_batch] is not part of the encoding. *)
Record raft_data := mk_raft_data {
  rd_type : logtype; rd_dest : dest; rd_name : str; rd_seq : N;
  rd_ver : option version; rd_meta : option metadata; rd_bkt : option bucket;
  rd_batch : bool }.

(** The zero value ([var data entity.RaftData], fsm_impl.go 105, 124). *)
Definition rd_zero : raft_data := mk_raft_data LOther DOther [] 0 None None None false.

(** What an applied entry answers: [RStatus] an [FSMResponse] (fsm_impl.go 202-222)
    with its HTTP status and data, [RErr] a bare error, [RPanic] a nil dereference. *)
Inductive fsm_res := RStatus (status : Z) (data : option N) | RErr | RPanic.

(** [FSMResult] (fsm_impl.go 207-222). *)
Definition fsm_status (e : option err) : Z :=
  match e with
  | None => 200
  | Some EExists => 200
  | Some ENotFound => 404
  | Some EOldData => 400
  | Some ENilData => 400
  | Some EUnknownLog => 500
  | Some EEmpty => 500
  | Some EBolt => 500
  end%Z.

Definition answer (r : db * option err) : db * fsm_res := (fst r, RStatus (fsm_status (snd r)) None).

(** [MetadataRepo.AddVersion] (metadata_repo.go 92-111) and
    [BatchMetaRepo.AddVersion] (batch_meta_repo.go 27-32); likewise
    [AddVersionFromRaft] (metadata_repo.go 113-132, batch_meta_repo.go 60-65).
    Only the former check that hash and unique id are not empty. *)
Definition nonempty_ids (v : version) : bool :=
  match v_hash v with [] => false | _ => match v_uid v with [] => false | _ => true end end.

Definition repo_add_version (batch : bool) (name : str) (v : version) (d : db) : db * option err :=
  if negb batch && negb (nonempty_ids v) then (d, Some EEmpty) else commit d (add_ver name v d).

Definition repo_add_version_raft (batch : bool) (name : str) (v : version) (d : db) : db * option err :=
  if negb batch && negb (nonempty_ids v) then (d, Some EEmpty)
  else commit d (add_ver_with_sequence name v d).

(** [data.Version.Sequence] after [repo.AddVersion] (fsm_impl.go 75). *)
Definition repo_add_version_seq (batch : bool) (name : str) (v : version) (d : db) : N :=
  if negb batch && negb (nonempty_ids v) then v_seq v else add_ver_seq name v d.

(** [applyBucket] (fsm_impl.go 39-51); a nil bucket is dereferenced by the logic. *)
Definition apply_bucket (r : raft_data) (d : db) : db * fsm_res :=
  match rd_type r with
  | LInsert => match rd_bkt r with
               | None => (d, RPanic)
               | Some b => answer (commit d (bkt_create b d))
               end
  | LRemove => answer (commit d (bkt_delete (rd_name r) d))
  | LUpdate => match rd_bkt r with
               | None => (d, RPanic)
               | Some b => answer (commit d (bkt_update b d))
               end
  | _ => answer (d, Some EUnknownLog)
  end.

(** [applyMetadata] (fsm_impl.go 53-65); [BatchMetaRepo.UpdateMetadata]
    (batch_meta_repo.go 52-54) lacks the nil check of metadata_repo.go 48-50. *)
Definition apply_metadata (r : raft_data) (d : db) : db * fsm_res :=
  match rd_type r with
  | LInsert => match rd_meta r with
               | None => answer (d, Some ENilData)
               | Some m => answer (commit d (add_meta (rd_name r) m d))
               end
  | LRemove => answer (commit d (remove_meta (rd_name r) d))
  | LUpdate => match rd_meta r with
               | None => if rd_batch r
                         then match d_meta d !! rd_name r with
                              | None => answer (d, Some ENotFound)
                              | Some _ => (d, RPanic)
                              end
                         else answer (d, Some ENilData)
               | Some m => answer (commit d (update_meta (rd_name r) m d))
               end
  | _ => answer (d, Some EUnknownLog)
  end.

(** [applyVersion] (fsm_impl.go 67-85): lines 75 and 80 dereference the version. *)
Definition apply_version (r : raft_data) (d : db) : db * fsm_res :=
  match rd_type r with
  | LMigrate => match rd_ver r with
                | None => answer (d, Some ENilData)
                | Some v => answer (repo_add_version_raft (rd_batch r) (rd_name r) v d)
                end
  | LInsert => match rd_ver r with
               | None => (d, RPanic)
               | Some v =>
                   let x := repo_add_version (rd_batch r) (rd_name r) v d in
                   (fst x, RStatus (fsm_status (snd x))
                             (Some (repo_add_version_seq (rd_batch r) (rd_name r) v d)))
               end
  | LRemove => answer (commit d (remove_ver (rd_name r) (rd_seq r) d))
  | LUpdate => match rd_ver r with
               | None => (d, RPanic)
               | Some v => answer (commit d (update_ver (rd_name r) (with_seq (rd_seq r) v) d))
               end
  | LOther => answer (d, Some EUnknownLog)
  end.

(** [applyVersionAll] (fsm_impl.go 87-95). *)
Definition apply_version_all (r : raft_data) (d : db) : db * fsm_res :=
  match rd_type r with
  | LRemove => answer (commit d (remove_all_ver (rd_name r) d))
  | _ => answer (d, Some EUnknownLog)
  end.

(** The dispatch shared by [Apply] (fsm_impl.go 110-120) and [ApplyBatch] (141-152). *)
Definition dispatch (r : raft_data) (d : db) : db * fsm_res :=
  match rd_dest r with
  | DMetadata => apply_metadata r d
  | DVersion => apply_version r d
  | DVersionAll => apply_version_all r d
  | DBucket => apply_bucket r d
  | DOther => (d, RErr)
  end.

(** The msgp form of a [RaftData]: a map, field by field
    (entity/raft_data_gen.go [MarshalMsg], [UnmarshalMsg] 380-490).  Absent fields
    keep their value, a truncated input stops with an error half way. *)
Inductive field :=
| FType (t : logtype) | FDest (t : dest) | FName (s : str) | FSeq (n : N)
| FVer (v : option version) | FMeta (m : option metadata) | FBkt (b : option bucket)
| FSkip | FBad.

Definition raft_data_fields (r : raft_data) : list field :=
  [FType (rd_type r); FDest (rd_dest r); FName (rd_name r); FSeq (rd_seq r);
   FVer (rd_ver r); FMeta (rd_meta r); FBkt (rd_bkt r)].

(** One field of [UnmarshalMsg] (entity/raft_data_gen.go 396-486). *)
Definition decode_field (r : raft_data) (f : field) : raft_data :=
  match f with
  | FType t => mk_raft_data t (rd_dest r) (rd_name r) (rd_seq r) (rd_ver r) (rd_meta r) (rd_bkt r) (rd_batch r)
  | FDest t => mk_raft_data (rd_type r) t (rd_name r) (rd_seq r) (rd_ver r) (rd_meta r) (rd_bkt r) (rd_batch r)
  | FName s => mk_raft_data (rd_type r) (rd_dest r) s (rd_seq r) (rd_ver r) (rd_meta r) (rd_bkt r) (rd_batch r)
  | FSeq n => mk_raft_data (rd_type r) (rd_dest r) (rd_name r) n (rd_ver r) (rd_meta r) (rd_bkt r) (rd_batch r)
  | FVer v => mk_raft_data (rd_type r) (rd_dest r) (rd_name r) (rd_seq r) v (rd_meta r) (rd_bkt r) (rd_batch r)
  | FMeta m => mk_raft_data (rd_type r) (rd_dest r) (rd_name r) (rd_seq r) (rd_ver r) m (rd_bkt r) (rd_batch r)
  | FBkt b => mk_raft_data (rd_type r) (rd_dest r) (rd_name r) (rd_seq r) (rd_ver r) (rd_meta r) b (rd_batch r)
  | FSkip => r
  | FBad => r
  end.

(** [UnmarshalMsg] into an existing value: the value afterwards, and success. *)
Fixpoint decode_into (r : raft_data) (fs : list field) : raft_data * bool :=
  match fs with
  | [] => (r, true)
  | FBad :: _ => (r, false)
  | f :: fs' => decode_into (decode_field r f) fs'
  end.

(** A raft log entry: nil or empty data, another log type than a command, or a command. *)
Inductive entry := EnNil | EnOther | EnCmd (fs : list field).

(** [data.Batch = true] (fsm_impl.go 140). *)
Definition set_batch (r : raft_data) : raft_data :=
  mk_raft_data (rd_type r) (rd_dest r) (rd_name r) (rd_seq r) (rd_ver r) (rd_meta r) (rd_bkt r) true.

(** [FSMImpl.Apply] (fsm_impl.go 97-121). *)
Definition fsm_apply (d : db) (e : entry) : db * fsm_res :=
  match e with
  | EnNil => (d, RStatus (fsm_status (Some ENilData)) None)
  | EnOther => (d, RErr)
  | EnCmd fs =>
      match decode_into rd_zero fs with
      | (r, true) => dispatch r d
      | (_, false) => (d, RErr)
      end
  end.

(** What an apply function leaves in the shared [data]: [AddVer] writes the number
    (metadata_logic.go 177) and fsm_impl.go 80 the number of an update.  (The kept
    fields that a successful update writes back, metadata_logic.go 89-90 and
    236-238, bucket_logic.go 108, are left out: the next decoding overwrites every
    field present in the entry.) *)
Definition leave (r : raft_data) (d : db) : raft_data :=
  match rd_dest r, rd_type r, rd_ver r with
  | DVersion, LInsert, Some v =>
      mk_raft_data (rd_type r) (rd_dest r) (rd_name r) (rd_seq r)
        (Some (with_seq (repo_add_version_seq (rd_batch r) (rd_name r) v d) v))
        (rd_meta r) (rd_bkt r) (rd_batch r)
  | DVersion, LUpdate, Some v =>
      mk_raft_data (rd_type r) (rd_dest r) (rd_name r) (rd_seq r)
        (Some (with_seq (rd_seq r) v)) (rd_meta r) (rd_bkt r) (rd_batch r)
  | _, _, _ => r
  end.

(** The loop of [FSMImpl.ApplyBatch] (fsm_impl.go 127-153), [data] declared once
    (124) and reused. *)
Fixpoint batch_loop (data : raft_data) (d : db) (es : list entry) : db * list fsm_res :=
  match es with
  | [] => (d, [])
  | EnNil :: es' =>
      let (d', rs) := batch_loop data d es' in (d', RStatus (fsm_status (Some ENilData)) None :: rs)
  | EnOther :: es' => let (d', rs) := batch_loop data d es' in (d', RErr :: rs)
  | EnCmd fs :: es' =>
      match decode_into data fs with
      | (r, false) => let (d', rs) := batch_loop r d es' in (d', RErr :: rs)
      | (r, true) =>
          let rb := set_batch r in
          let (d1, x) := dispatch rb d in
          let (d2, rs) := batch_loop (leave rb d) d1 es' in (d2, x :: rs)
      end
  end.

(** [FSMImpl.ApplyBatch] (fsm_impl.go 123-164); the final sync is taken to succeed. *)
Definition fsm_apply_batch (d : db) (es : list entry) : db * list fsm_res := batch_loop rd_zero d es.

(** ** Reads *)

(** [util.ToUint64] (common/util/util.go 152-161): on a range error
    [strconv.ParseUint] gives the largest value, on a syntax error 0. *)
Definition to_uint64 (s : str) : N :=
  match parse_digits s with
  | Some n => if (n <? 2 ^ 64)%N then n else (2 ^ 64 - 1)%N
  | None => 0%N
  end.

(** [util.ToInt] (common/util/util.go 130-139) on unsigned texts: clipped likewise. *)
Definition to_int (s : str) : Z :=
  match parse_digits s with
  | Some n => Z.min (Z.of_N n) int64_max
  | None => 0%Z
  end.

(** [strings.LastIndexByte(key, '.')] and the two slices around it: [None] when
    there is no dot (index -1). *)
Fixpoint cut_last (sep : ascii) (s : str) : option (str * str) :=
  match s with
  | [] => None
  | c :: s' =>
      match cut_last sep s' with
      | Some (a, b) => Some (c :: a, b)
      | None => if ascii_dec c sep then Some ([], s') else None
      end
  end.

(** Bolt's key order: insertion into an ordered list of distinct keys. *)
Fixpoint kinsert (k : str) (l : list str) : list str :=
  match l with
  | [] => [k]
  | x :: l' => if str_ltb k x then k :: x :: l' else x :: kinsert k l'
  end.

Definition ksort (l : list str) : list str := foldr kinsert [] l.

(** The keys of a bolt bucket in cursor order. *)
Definition keys {A} (m : gmap str A) : list str := ksort (map_to_list m).*1.

(** [GetLastVersionNumber] (metadata_repo.go 204-223): 1 without a version bucket,
    0 for an empty one, else the number of the last key in byte order. *)
Definition last_version_number (name : str) (d : db) : N :=
  match d_vers d !! name with
  | None => 1%N
  | Some b =>
      match last (keys (vb_map b)) with
      | None => 0%N
      | Some k => match cut_last "."%char k with
                  | None => 0%N
                  | Some (_, t) => to_uint64 t
                  end
      end
  end.

(** [GetFirstVersionNumber] (metadata_repo.go 183-202). *)
Definition first_version_number (name : str) (d : db) : N :=
  match d_vers d !! name with
  | None => 1%N
  | Some b =>
      match head (keys (vb_map b)) with
      | None => 0%N
      | Some k => match cut_last "."%char k with
                  | None => 0%N
                  | Some (_, t) => to_uint64 t
                  end
      end
  end.

(** One end of [GetExtra] (metadata_logic.go 114-122): [idx > 0]. *)
Definition extra_number (k : option str) : Z :=
  match k with
  | None => 0%Z
  | Some k => match cut_last "."%char k with
              | Some (_ :: _, t) => to_int t
              | _ => 0%Z
              end
  end.

(** [GetExtra] (metadata_logic.go 105-125): total, first, last; [None] is not found. *)
Definition get_extra (name : str) (d : db) : option (nat * Z * Z) :=
  match d_vers d !! name with
  | None => None
  | Some b => Some (size (vb_map b), extra_number (head (keys (vb_map b))),
                    extra_number (last (keys (vb_map b))))
  end.

(** [MetadataService.GetVersion] (metadata_service.go 162-167) without the cache:
    a number <= 0 asks for the last one; [uint64(ver)] keeps positive numbers. *)
Definition service_get_version (name : str) (ver : Z) (d : db) : option version :=
  if (ver <=? 0)%Z then get_ver name (last_version_number name d) d
  else get_ver name (Z.to_N ver) d.

(** The loop of [MetadataService.FindByHash] (metadata_service.go 212-224): entries
    whose version is gone are dropped from the index. *)
Fixpoint find_loop (h : str) (ks : list str) (d : db) : db * list version :=
  match ks with
  | [] => (d, [])
  | k :: ks' =>
      match cut_last "."%char k with
      | None => (d, [])
      | Some (name, t) =>
          match service_get_version name (to_int t) d with
          | None => find_loop h ks' (with_hash (idx_remove h k (d_hash d)) d)
          | Some v => let (d', vs) := find_loop h ks' d in (d', v :: vs)
          end
      end
  end.

(** [MetadataService.FindByHash] (metadata_service.go 205-229); index keys always
    contain a dot, the slice panic of a key without one is cut short. *)
Definition find_by_hash (h : str) (d : db) : db * list version :=
  find_loop h (ksort (elements (idx_get h (d_hash d)))) d.

(** [MetadataRepo.ListVersions] (metadata_repo.go 240-269) without the cache: from
    the first key at or after "name.start", [end - start + 1] of them.  [None] is
    not found. *)
Definition list_versions (name : str) (start_ : N) (size_ : nat) (d : db) : option (list version * nat) :=
  match d_vers d !! name with
  | None => None
  | Some b =>
      let ks := filter (fun k => str_ltb k (vkey name start_) = false) (keys (vb_map b)) in
      Some (omap (fun k => vb_map b !! k) (take size_ ks), size (vb_map b))
  end.

(** [MetadataService.ListVersions] (metadata_service.go 169-176) for a page >= 1 (page
    0 is page 1; metadata_server.go 48 refuses others): both ends are included. *)
Definition service_list_versions (name : str) (page : N) (size_ : nat) (d : db) : option (list version * nat) :=
  let p := if (page =? 0)%N then 1%N else page in
  list_versions name ((p - 1) * N.of_nat size_ + 1) (S size_) d.

(** Does [p] start [s] ([strings.HasPrefix]). *)
Fixpoint prefixb (p s : str) : bool :=
  match p, s with
  | [], _ => true
  | _, [] => false
  | a :: p', b :: s' => if ascii_dec a b then prefixb p' s' else false
  end.

(** The scan of [ListMetadata] (metadata_repo.go 286-298) / [BucketCrud.List]
    (bucket_logic.go 132-145): from [Seek(prefix)] while the prefix matches, at most
    [n]. *)
Fixpoint scan_prefix (p : str) (n : nat) (ks : list str) : list str :=
  match n, ks with
  | O, _ => []
  | _, [] => []
  | S n', k :: ks' => if prefixb p k then k :: scan_prefix p n' ks' else []
  end.

Definition seek_scan {A} (p : str) (n : nat) (m : gmap str A) : list str :=
  scan_prefix p n (filter (fun k => str_ltb k p = false) (keys m)).

(** [ListMetadata] (metadata_repo.go 271-302): items and total. *)
Definition list_metadata (p : str) (n : nat) (d : db) : list metadata * nat :=
  let l := omap (fun k => d_meta d !! k) (seek_scan p n (d_meta d)) in
  (l, match p with [] => size (d_meta d) | _ => length l end).

(** [BucketCrud.List] (bucket_logic.go 117-149). *)
Definition list_buckets (p : str) (n : nat) (d : db) : list bucket * nat :=
  let l := omap (fun k => d_bkt d !! k) (seek_scan p n (d_bkt d)) in
  (l, match p with [] => size (d_bkt d) | _ => length l end).

(** ** Updating the locations of one content *)

(** [v.Locate[index] = value]; [None] is the index panic. *)
Definition set_locate (i : nat) (l : str) (v : version) : option version :=
  if (i <? length (v_locate v))%nat
  then Some (mk_version (v_compress v) (v_strategy v) (v_ds v) (v_ps v) (v_shard v) (v_size v)
               (v_ts v) (v_seq v) (v_hash v) (v_uid v) (<[ i := l ]> (v_locate v)))
  else None.

Definition set_ts (t : Z) (v : version) : version :=
  mk_version (v_compress v) (v_strategy v) (v_ds v) (v_ps v) (v_shard v) (v_size v)
             t (v_seq v) (v_hash v) (v_uid v) (v_locate v).

(** The loop of [UpdateLocateByHash] (metadata_repo.go 397-408); [now] is the clock
    reading of each round. *)
Fixpoint update_locate_loop (i : nat) (l : str) (now : Z) (ks : list str) (d : db) : txres :=
  match ks with
  | [] => inl d
  | k :: ks' =>
      match cut_last "."%char k with
      | None => inr EBolt
      | Some (name, t) =>
          match get_ver name (to_uint64 t) d with
          | None => inr ENotFound
          | Some v =>
              match set_locate i l (set_ts now v) with
              | None => inr EBolt
              | Some v' =>
                  match update_ver name v' d with
                  | inr e => inr e
                  | inl d' => update_locate_loop i l now ks' d'
                  end
              end
          end
      end
  end.

(** [UpdateLocateByHash] (metadata_repo.go 390-411): one transaction. *)
Definition update_locate_by_hash (h : str) (i : nat) (l : str) (now : Z) (d : db) : db * option err :=
  commit d (update_locate_loop i l now (ksort (elements (idx_get h (d_hash d)))) d).

(** ** Histories *)

(** One call that reaches the store: a log entry, a lookup by hash (which cleans the
    index, metadata_service.go 218) or a change of locations. *)
Inductive hop :=
| HCmd (c : raft_data)
| HFind (h : str)
| HLocate (h : str) (i : nat) (l : str) (now : Z).

Definition hstep (d : db) (o : hop) : db :=
  match o with
  | HCmd c => fst (dispatch c d)
  | HFind h => fst (find_by_hash h d)
  | HLocate h i l now => fst (update_locate_by_hash h i l now d)
  end.

Definition hrun (d : db) (ops : list hop) : db := fold_left hstep ops d.
