(** Model of the metadata server's record cache: what the two repositories read
    through it, what the background goroutines of every write and every missed read
    put into it, and the page of versions that is partly answered from it.

    Source: src/metaserver/internal/usecase/repo/{metadata_repo,metadata_cache_repo,
    bucket_repo,bucket_cache_repo,batch_meta_repo,batch_bucket_repo}.go,
    src/common/cache/cache.go.

    Simplifications: a cached value is the record it encodes; reading it as another
    record keeps the fields of the same name and leaves the others zero, which is
    what the generated decoders do (msg/metadata_gen.go, [UnmarshalMsg]); the field
    [Extra] of [Metadata] is left out; one cache operation is one atomic step; an
    entry may disappear at any time (expiry, eviction, a refused [Set]). *)
From Verif Require Import Str_Model Meta_Model Meta_Spec.
From stdpp Require Import gmap.

(** An encoded record: metadata_cache_repo.go 88, 98 and bucket_cache_repo.go 34. *)
Inductive crec := CMeta (m : metadata) | CVer (v : version) | CBkt (b : bucket).

(** [Metadata.UnmarshalMsg] (msg/metadata_gen.go): fields name, bucket, create_time,
    update_time. *)
Definition as_meta (r : crec) : metadata :=
  match r with
  | CMeta m => m
  | CVer _ => mk_metadata [] [] 0 0
  | CBkt b => mk_metadata (b_name b) [] (b_ctime b) (b_utime b)
  end.

(** [Version.UnmarshalMsg] (msg/metadata_gen.go). *)
Definition as_ver (r : crec) : version :=
  match r with
  | CMeta _ => mk_version false 0 0 0 0 0 0 0 [] [] []
  | CVer v => v
  | CBkt b => mk_version (b_compress b) (b_strategy b) (b_ds b) (b_ps b) 0 0 0 0 [] [] []
  end.

(** [Bucket.UnmarshalMsg] (msg/metadata_gen.go). *)
Definition as_bkt (r : crec) : bucket :=
  match r with
  | CMeta m => mk_bucket false false false 0 0 0 0 (m_ctime m) (m_utime m) (m_name m) []
  | CVer v => mk_bucket false false (v_compress v) (v_strategy v) (v_ds v) (v_ps v) 0 0 0 [] []
  | CBkt b => b
  end.

(** [fmt.Sprint(MetaCachePrefix, s)] (metadata_cache_repo.go 34, 50, 92, 115). *)
Definition meta_key (id : str) : str := s2l "metadata_"%string ++ id.

(** [fmt.Sprint(MetaCachePrefix, s, logic.Sep, u)] (metadata_cache_repo.go 61, 97, 120). *)
Definition ver_key (id : str) (n : N) : str := s2l "metadata_"%string ++ vkey id n.

(** [fmt.Sprint(BucketCachePrefix, name)] (bucket_cache_repo.go 12, 24, 38, 43). *)
Definition bkt_key (name : str) : str := s2l "bucket_"%string ++ name.

(** One operation on the cache ([Cache.Set], [Cache.Delete], cache.go 78-87). *)
Inductive cact := CSet (k : str) (r : crec) | CDel (k : str).

(** The server: its database, its cache, and the started goroutines with the cache
    operations each has left. *)
Record cst := mk_cst { cs_db : db; cs_cache : gmap str crec; cs_pend : list (list cact) }.

(** A server just started on [d]. *)
Definition cstart (d : db) : cst := mk_cst d ∅ [].

(** The write methods of [MetadataRepo] (metadata_repo.go 32-75, 92-181) and
    [BucketRepo] (bucket_repo.go 42-76): the transaction. *)
Definition repo_call (c : call) (d : db) : db * option err :=
  match c with
  | AddMetadata id m => commit d (add_meta id m d)
  | RemoveMetadata id => commit d (remove_meta id d)
  | UpdateMetadata id m => commit d (update_meta id m d)
  | AddVersion id v => repo_add_version false id v d
  | MigrateVersion id v => repo_add_version_raft false id v d
  | RemoveVersion id n => commit d (remove_ver id n d)
  | UpdateVersion id n v => commit d (update_ver id (with_seq n v) d)
  | RemoveVersions id => commit d (remove_all_ver id d)
  | CreateBucket b => commit d (bkt_create b d)
  | DeleteBucket name => commit d (bkt_delete name d)
  | UpdateBucket b => commit d (bkt_update b d)
  end.

(** The numbers [a .. b] of a counting loop (metadata_repo.go 70, 175). *)
Definition numbers (a b : N) : list N :=
  map (fun i => (a + N.of_nat i)%N) (seq 0 (N.to_nat (b + 1 - a))).

(** The goroutine a successful write starts (metadata_repo.go 39-43, 54-58, 67-73,
    105-109, 126-130, 141-145, 153-157, 173-179; bucket_repo.go 44-49, 56-61, 68-72).
    [d] is the database before the write: the last version number is read before
    (63, 162).  The written record is the one the transaction completed in place
    (metadata_logic.go 89-90, 177, 236-238, bucket_logic.go 108). *)
Definition announce (c : call) (d : db) : list cact :=
  match c with
  | AddMetadata id m => [CSet (meta_key id) (CMeta m)]
  | RemoveMetadata id =>
      CDel (meta_key id) :: map (fun i => CDel (ver_key id i)) (numbers 1 (last_version_number id d))
  | UpdateMetadata id m =>
      match d_meta d !! id with
      | Some o => [CSet (meta_key id) (CMeta (keep_meta o m))]
      | None => []
      end
  | AddVersion id v =>
      let n := add_ver_seq id v d in [CSet (ver_key id n) (CVer (with_seq n v))]
  | MigrateVersion id v => [CSet (ver_key id (v_seq v)) (CVer v)]
  | RemoveVersion id n => [CDel (ver_key id n)]
  | UpdateVersion id n v =>
      match get_ver id n d with
      | Some o => let v' := keep_identity o v in [CSet (ver_key id (v_seq v')) (CVer v')]
      | None => []
      end
  | RemoveVersions id =>
      map (fun i => CDel (ver_key id i)) (numbers 0 (last_version_number id d))
  | CreateBucket b => [CSet (bkt_key (b_name b)) (CBkt b)]
  | DeleteBucket name => [CDel (bkt_key name)]
  | UpdateBucket b =>
      match d_bkt d !! b_name b with
      | Some o => [CSet (bkt_key (b_name b)) (CBkt (keep_ctime o b))]
      | None => []
      end
  end.

(** What can happen at the server: a write through the repositories, a write through
    the batch repositories ([ApplyBatch], fsm_impl.go 123-164), a change of locations
    (metadata_repo.go 390-411), a restored snapshot (304-328), the reads, one step of
    a goroutine, and the loss of a cache entry. *)
Inductive cop :=
| ODirect (c : call)
| OBatch (c : call)
| OLocate (h : str) (i : nat) (l : str) (now : Z)
| ORestore (d : db)
| OGetMeta (id : str)
| OGetVer (id : str) (n : N)
| OGetBkt (name : str)
| OListBkt (p : str) (n : nat)
| ORun (i : nat)
| OEvict (k : str).

(** What the caller gets. *)
Inductive cans :=
| AnsErr (e : option err)
| AnsMeta (o : option metadata)
| AnsVer (o : option version)
| AnsBkt (o : option bucket)
| AnsBkts (l : list bucket)
| AnsNone.

(** Starting a goroutine. *)
Definition spawn (g : list cact) (s : cst) : cst :=
  mk_cst (cs_db s) (cs_cache s) (cs_pend s ++ [g]).

(** One operation on the cache. *)
Definition cache_act (a : cact) (c : gmap str crec) : gmap str crec :=
  match a with
  | CSet k r => <[ k := r ]> c
  | CDel k => delete k c
  end.

(** Goroutine [i] does its next operation. *)
Definition run_one (i : nat) (s : cst) : cst :=
  match cs_pend s !! i with
  | Some (a :: g) => mk_cst (cs_db s) (cache_act a (cs_cache s)) (<[ i := g ]> (cs_pend s))
  | _ => s
  end.

(** One step. *)
Definition cstep (s : cst) (o : cop) : cst * cans :=
  let d := cs_db s in
  match o with
  | ODirect c =>
      match repo_call c d with
      | (d', None) => (spawn (announce c d) (mk_cst d' (cs_cache s) (cs_pend s)), AnsErr None)
      | (d', Some e) => (mk_cst d' (cs_cache s) (cs_pend s), AnsErr (Some e))
      end
  | OBatch c => (mk_cst (fst (dispatch (command true c) d)) (cs_cache s) (cs_pend s), AnsNone)
  | OLocate h i l now =>
      let (d', e) := update_locate_by_hash h i l now d in
      (mk_cst d' (cs_cache s) (cs_pend s), AnsErr e)
  | ORestore d' => (mk_cst d' (cs_cache s) (cs_pend s), AnsNone)
  | OGetMeta id =>            (* metadata_repo.go 77-90 *)
      match cs_cache s !! meta_key id with
      | Some r => (s, AnsMeta (Some (as_meta r)))
      | None =>
          match d_meta d !! id with
          | Some m => (spawn [CSet (meta_key id) (CMeta m)] s, AnsMeta (Some m))
          | None => (s, AnsMeta None)
          end
      end
  | OGetVer id n =>           (* metadata_repo.go 225-238; AddVersion caches under its own number *)
      match cs_cache s !! ver_key id n with
      | Some r => (s, AnsVer (Some (as_ver r)))
      | None =>
          match get_ver id n d with
          | Some v => (spawn [CSet (ver_key id (v_seq v)) (CVer v)] s, AnsVer (Some v))
          | None => (s, AnsVer None)
          end
      end
  | OGetBkt name =>           (* bucket_repo.go 27-40; Create caches under the record's name *)
      match cs_cache s !! bkt_key name with
      | Some r => (s, AnsBkt (Some (as_bkt r)))
      | None =>
          match d_bkt d !! name with
          | Some b => (spawn [CSet (bkt_key (b_name b)) (CBkt b)] s, AnsBkt (Some b))
          | None => (s, AnsBkt None)
          end
      end
  | OListBkt p n =>           (* bucket_repo.go 78-93 *)
      let l := fst (list_buckets p n d) in
      (spawn (map (fun b => CSet (bkt_key (b_name b)) (CBkt b)) l) s, AnsBkts l)
  | ORun i => (run_one i s, AnsNone)
  | OEvict k => (mk_cst d (delete k (cs_cache s)) (cs_pend s), AnsNone)
  end.

(** A run. *)
Definition crun (s : cst) (ops : list cop) : cst := fold_left (fun s o => fst (cstep s o)) ops s.

(** ** A page of versions *)

(** [MetadataCacheRepo.ListVersions] (metadata_cache_repo.go 74-85): the cached
    versions from number [i] on, up to the first one missing, whose number is reported
    ([newPartlyErr]). *)
Fixpoint cached_from (c : gmap str crec) (id : str) (i : N) (sz : nat) : list version * option N :=
  match sz with
  | O => ([], None)
  | S sz' =>
      match c !! ver_key id i with
      | None => ([], Some i)
      | Some r => let (l, miss) := cached_from c id (i + 1) sz' in (as_ver r :: l, miss)
      end
  end.

(** [MetadataRepo.ListVersions] (metadata_repo.go 240-269), [sz = end - start + 1]. *)
Definition list_versions_cached (c : gmap str crec) (id : str) (start_ : N) (sz : nat) (d : db)
  : option (list version * nat) :=
  let (l, miss) := cached_from c id start_ sz in
  let from := default start_ miss in
  match d_vers d !! id with
  | None => None
  | Some b =>
      let ks := filter (fun k => str_ltb k (vkey id from) = false) (keys (vb_map b)) in
      Some (l ++ omap (fun k => vb_map b !! k) (take (sz - length l) ks), size (vb_map b))
  end.
