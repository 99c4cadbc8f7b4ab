(** Model of moving objects and buckets between two metadata servers
    (src/metaserver/internal/usecase/service/hashslot_service.go 193-222
    [ReceiveItem], 273-341 [migrateMetadata], 343-393 [migrateBuckets], 243-249 of
    [AutoMigrate]), on the stores of Meta_Model.

    Simplified: what the network and the receiver's process do to one item is an
    [outcome]; the deletions, which the code starts as goroutines, happen right
    after the item's answers (whether they happen is a parameter, and by the
    theorems nothing later depends on them); nobody else writes to the two stores
    meanwhile unless said; the msgp encoding is taken to be lossless; a missing
    version bucket (a nil dereference in metadata_repo.go 332) counts as an empty
    one, it cannot occur beside metadata (C48). *)
From Verif Require Import Str_Model HashSlot_Model Owner_Model Meta_Model.
From stdpp Require Import gmap.

(** What happens to one sent item: it is processed and the answer comes back; it
    does not reach the receiver; it is processed but the answer is lost. *)
Inductive outcome := Answered | Lost | Unanswered.

(** ** The receiver *)

(** [AddMetadata] sets both times (metadata_service.go 26-28). *)
Definition arrived_meta (now : Z) (m : metadata) : metadata :=
  mk_metadata (m_name m) (m_bucket m) now now.

(** [Create] sets both times (bucket_service.go 24-25). *)
Definition arrived_bkt (now : Z) (b : bucket) : bucket :=
  mk_bucket (b_versioning b) (b_readonly b) (b_compress b) (b_strategy b)
            (b_ds b) (b_ps b) (b_remains b) now now (b_name b) (b_policies b).

(** One item (pb.MigrationItem): destination, name and decoded data. *)
Inductive item := IMeta (name : str) (m : metadata) | IVer (name : str) (v : version) | IBkt (b : bucket).

(** [ReceiveItem] 193-222: an object or version that exists already counts as
    received (218; with raft the log answers 200 for it).  [batch]: which repository
    applies it (raft's batches or not). *)
Definition receive (batch : bool) (now : Z) (i : item) (d : db) : db * bool :=
  let r := match i with
           | IMeta name m => commit d (add_meta name (arrived_meta now m) d)
           | IVer name v => repo_add_version_raft batch name v d
           | IBkt b => commit d (bkt_create (arrived_bkt now b) d)
           end in
  (fst r, match snd r with None => true | Some EExists => true | Some _ => false end).

(** One item sent and its answer awaited (289-304, 309-324, 364-379). *)
Definition send (batch : bool) (now : Z) (o : outcome) (i : item) (d : db) : db * bool :=
  match o with
  | Answered => receive batch now i d
  | Lost => (d, false)
  | Unanswered => (fst (receive batch now i d), false)
  end.

(** ** The sender *)

(** What happens during one migration: outcomes of object, version (by its key)
    and bucket items, and whether the deletions on the sender succeed. *)
Record events := mk_events {
  ev_meta : str -> outcome; ev_ver : str -> str -> outcome; ev_bkt : str -> outcome;
  ev_del_meta : str -> bool; ev_del_bkt : str -> bool }.

(** 275-277, 346-352: the key's slot is one of the named ones. *)
Definition moves (crc32 : str -> N) (edges : list edge) (key : str) : bool :=
  is_slot_in_edges (calc_bytes_slot crc32 key) edges.

(** 307-326: all versions are sent, in key order, whatever the answers. *)
Fixpoint send_versions (batch : bool) (now : Z) (ev : str -> outcome) (name : str)
    (vs : list (str * version)) (d : db) : db * bool :=
  match vs with
  | [] => (d, true)
  | (k, v) :: vs' =>
      let (d1, ok1) := send batch now (ev k) (IVer name v) d in
      let (d2, ok2) := send_versions batch now ev name vs' d1 in
      (d2, ok1 && ok2)
  end.

(** [Bucket.ForEach] on a version bucket (metadata_repo.go 330-340). *)
Definition version_list (m : gmap str version) : list (str * version) :=
  omap (fun k => pair k <$> m !! k) (keys m).
Definition versions_of (name : str) (d : db) : list (str * version) :=
  match d_vers d !! name with None => [] | Some b => version_list (vb_map b) end.

(** Sender, receiver, and whether no error was collected. *)
Definition mstate : Type := db * db * bool.

(** One round of the loop of [migrateMetadata] (281-337). *)
Definition move_object (batch : bool) (now : Z) (ev : events) (s : mstate) (key : str) : mstate :=
  let '(ds, dr, ok) := s in
  match d_meta ds !! key with
  | None => (ds, dr, false)
  | Some m =>
      let (dr1, ok1) := send batch now (ev_meta ev key) (IMeta key m) dr in
      if ok1 then
        let (dr2, ok2) := send_versions batch now (ev_ver ev key) key (versions_of key ds) dr1 in
        if ok2
        then (if ev_del_meta ev key then fst (commit ds (remove_meta key ds)) else ds, dr2, ok)
        else (ds, dr2, false)
      else (ds, dr1, false)
  end.

(** [migrateMetadata] 273-341. *)
Definition migrate_metadata (crc32 : str -> N) (batch : bool) (now : Z) (ev : events) (edges : list edge)
    (s : mstate) : mstate :=
  fold_left (move_object batch now ev) (filter (fun k => moves crc32 edges k = true) (keys (d_meta (fst (fst s))))) s.

(** One round of the loop of [migrateBuckets] (354-386); [cache] is what the
    sender's bucket cache holds, it is asked first (bucket_repo.go 95-102). *)
Definition move_bucket (now : Z) (ev : events) (cache : str -> option bucket) (s : mstate) (name : str) : mstate :=
  let '(ds, dr, ok) := s in
  match (match cache name with Some b => Some b | None => d_bkt ds !! name end) with
  | None => (ds, dr, false)
  | Some b =>
      let (dr1, ok1) := send false now (ev_bkt ev name) (IBkt b) dr in
      if ok1
      then (if ev_del_bkt ev name then fst (commit ds (bkt_delete name ds)) else ds, dr1, ok)
      else (ds, dr1, false)
  end.

(** [migrateBuckets] 343-393. *)
Definition migrate_buckets (crc32 : str -> N) (now : Z) (ev : events) (cache : str -> option bucket)
    (edges : list edge) (s : mstate) : mstate :=
  fold_left (move_bucket now ev cache) (filter (fun k => moves crc32 edges k = true) (keys (d_bkt (fst (fst s))))) s.

(** [AutoMigrate] 243-249: objects, then buckets; success when no error was
    collected.  The slots that move are those of the texts [slots]; [edges_of]
    (Owner_Model) is [WrapSlotsToEdges] with the error ignored. *)
Definition move_all (crc32 : str -> N) (sort : sorter) (batch : bool) (now : Z) (ev : events)
    (cache : str -> option bucket) (slots : list str) (ds dr : db) : mstate :=
  let edges := edges_of sort slots in
  migrate_buckets crc32 now ev cache edges (migrate_metadata crc32 batch now ev edges (ds, dr, true)).
