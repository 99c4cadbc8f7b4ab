(** Specification of the metadata store: a plain map from object ids to metadata and
    numbered versions, next to a plain map of buckets.  It does not mention bolt keys
    or indexes. *)
From Verif Require Import Str_Model Meta_Model.
From stdpp Require Import gmap.

(** An object: its metadata, the last number handed out, its versions by number. *)
Record obj := mk_obj { o_meta : metadata; o_next : N; o_vers : gmap N version }.

Record store := mk_store { s_objs : gmap str obj; s_bkts : gmap str bucket }.

Definition store_empty : store := mk_store ∅ ∅.

Definition put_obj (id : str) (o : obj) (s : store) : store :=
  mk_store (<[ id := o ]> (s_objs s)) (s_bkts s).

(** Answers. *)
Definition ok : fsm_res := RStatus 200 None.
Definition not_found : fsm_res := RStatus 404 None.
Definition bad : fsm_res := RStatus 400 None.
Definition failed : fsm_res := RStatus 500 None.

(** The call a log entry stands for. *)
Inductive call :=
| AddMetadata (id : str) (m : metadata)
| RemoveMetadata (id : str)
| UpdateMetadata (id : str) (m : metadata)
| AddVersion (id : str) (v : version)
| MigrateVersion (id : str) (v : version)
| RemoveVersion (id : str) (n : N)
| UpdateVersion (id : str) (n : N) (v : version)
| RemoveVersions (id : str)
| CreateBucket (b : bucket)
| DeleteBucket (name : str)
| UpdateBucket (b : bucket).

(** Its encoding as a log entry (the service methods, metadata_service.go 26-135 and
    bucket_service.go; [batch] tells which repository applies it). *)
Definition command (batch : bool) (c : call) : raft_data :=
  match c with
  | AddMetadata id m => mk_raft_data LInsert DMetadata id 0 None (Some m) None batch
  | RemoveMetadata id => mk_raft_data LRemove DMetadata id 0 None None None batch
  | UpdateMetadata id m => mk_raft_data LUpdate DMetadata id 0 None (Some m) None batch
  | AddVersion id v => mk_raft_data LInsert DVersion id 0 (Some v) None None batch
  | MigrateVersion id v => mk_raft_data LMigrate DVersion id 0 (Some v) None None batch
  | RemoveVersion id n => mk_raft_data LRemove DVersion id n None None None batch
  | UpdateVersion id n v => mk_raft_data LUpdate DVersion id n (Some v) None None batch
  | RemoveVersions id => mk_raft_data LRemove DVersionAll id 0 None None None batch
  | CreateBucket b => mk_raft_data LInsert DBucket (b_name b) 0 None None (Some b) batch
  | DeleteBucket n => mk_raft_data LRemove DBucket n 0 None None None batch
  | UpdateBucket b => mk_raft_data LUpdate DBucket (b_name b) 0 None None (Some b) batch
  end.

(** Go's uint64 fields. *)
Definition call_ok (c : call) : Prop :=
  match c with
  | AddVersion _ v | MigrateVersion _ v => (v_seq v < 2 ^ 64)%N
  | _ => True
  end.

(** Both texts that identify a version are present. *)
Definition ids_present (v : version) : bool :=
  bool_decide (v_hash v <> []) && bool_decide (v_uid v <> []).

(** What a call does to the map, and its answer.  [dup] tells whether the unique id
    of an added version counts as taken; [lax] that the batch repository accepts a
    migrated version without a unique id. *)
Definition spec_call (dup lax : bool) (c : call) (s : store) : store * fsm_res :=
  match c with
  | AddMetadata id m =>
      match s_objs s !! id with
      | Some _ => (s, ok)
      | None => if bool_decide (id = []) then (s, failed)
                else (put_obj id (mk_obj m 0 ∅) s, ok)
      end
  | RemoveMetadata id => (mk_store (delete id (s_objs s)) (s_bkts s), ok)
  | UpdateMetadata id m =>
      match s_objs s !! id with
      | None => (s, not_found)
      | Some o =>
          if (m_utime m <=? m_utime (o_meta o))%Z then (s, bad)
          else (put_obj id (mk_obj (mk_metadata (m_name m) (m_bucket (o_meta o)) (m_ctime (o_meta o)) (m_utime m))
                                   (o_next o) (o_vers o)) s, ok)
      end
  | AddVersion id v =>
      match s_objs s !! id with
      | None => (s, RStatus (if lax || ids_present v then 404 else 500) (Some (v_seq v)))
      | Some o =>
          if negb lax && negb (ids_present v) then (s, RStatus 500 (Some (v_seq v)))
          else if dup then (s, RStatus 200 (Some (v_seq v)))
          else
            let n := ((o_next o + 1) mod 2 ^ 64)%N in
            match o_vers o !! n with
            | Some _ => (s, RStatus 200 (Some n))
            | None =>
                if ids_present v
                then (put_obj id (mk_obj (o_meta o) n (<[ n := with_seq n v ]> (o_vers o))) s,
                      RStatus 200 (Some n))
                else (s, RStatus 500 (Some n))
            end
      end
  | MigrateVersion id v =>
      if negb lax && negb (ids_present v) then (s, failed)
      else
      match s_objs s !! id with
      | None => (s, not_found)
      | Some o =>
          if dup then (s, ok)
          else match o_vers o !! v_seq v with
               | Some _ => (s, ok)
               | None => if bool_decide (v_hash v = []) then (s, failed)
                         else (put_obj id (mk_obj (o_meta o) (N.max (o_next o) (v_seq v))
                                                  (<[ v_seq v := v ]> (o_vers o))) s, ok)
               end
      end
  | RemoveVersion id n =>
      match s_objs s !! id with
      | None => (s, ok)
      | Some o => match o_vers o !! n with
                  | None => (s, not_found)
                  | Some _ => (put_obj id (mk_obj (o_meta o) (o_next o) (delete n (o_vers o))) s, ok)
                  end
      end
  | UpdateVersion id n v =>
      match s_objs s !! id with
      | None => (s, not_found)
      | Some o =>
          match o_vers o !! n with
          | None => (s, not_found)
          | Some v0 =>
              if (v_ts v <=? v_ts v0)%Z then (s, bad)
              else (put_obj id (mk_obj (o_meta o) (o_next o)
                      (<[ n := mk_version (v_compress v) (v_strategy v) (v_ds v) (v_ps v) (v_shard v)
                                 (v_size v) (v_ts v) (v_seq v0) (v_hash v0) (v_uid v0) (v_locate v) ]>
                         (o_vers o))) s, ok)
          end
      end
  | RemoveVersions id =>
      match s_objs s !! id with
      | None => (s, failed)
      | Some o => (put_obj id (mk_obj (o_meta o) 0 ∅) s, ok)
      end
  | CreateBucket b =>
      if bool_decide (b_name b = []) then (s, failed)
      else match s_bkts s !! b_name b with
           | Some _ => (s, ok)
           | None => (mk_store (s_objs s) (<[ b_name b := b ]> (s_bkts s)), ok)
           end
  | DeleteBucket n => (mk_store (s_objs s) (delete n (s_bkts s)), ok)
  | UpdateBucket b =>
      if bool_decide (b_name b = []) then (s, failed)
      else match s_bkts s !! b_name b with
           | None => (s, not_found)
           | Some b0 =>
               if (b_utime b <=? b_utime b0)%Z then (s, bad)
               else (mk_store (s_objs s)
                       (<[ b_name b := mk_bucket (b_versioning b) (b_readonly b) (b_compress b)
                                         (b_strategy b) (b_ds b) (b_ps b) (b_remains b) (b_ctime b0)
                                         (b_utime b) (b_name b) (b_policies b) ]> (s_bkts s)), ok)
           end
  end.

(** The database shows exactly this map to its readers: reading object metadata, a
    version by number, the counter and a bucket. *)
Definition shows (d : db) (s : store) : Prop :=
  (forall id, d_meta d !! id = o_meta <$> s_objs s !! id) /\
  (forall id, vb_seq <$> d_vers d !! id = o_next <$> s_objs s !! id) /\
  (forall id n, get_ver id n d = s_objs s !! id ≫= fun o => o_vers o !! n) /\
  (forall id, size <$> (vb_map <$> d_vers d !! id) = size <$> (o_vers <$> s_objs s !! id)) /\
  (forall name, d_bkt d !! name = s_bkts s !! name).

(** A run of the map machine: the answers of a history of calls, the duplicate
    decisions being free. *)
Inductive spec_run : store -> list (bool * call) -> list fsm_res -> store -> Prop :=
| spec_nil : forall s, spec_run s [] [] s
| spec_cons : forall s batch c cs dup s1 r rs s2,
    spec_call dup batch c s = (s1, r) ->
    spec_run s1 cs rs s2 ->
    spec_run s ((batch, c) :: cs) (r :: rs) s2.

(** A run of the modelled store on the same calls. *)
Fixpoint store_run (d : db) (cs : list (bool * call)) : db * list fsm_res :=
  match cs with
  | [] => (d, [])
  | (batch, c) :: cs' =>
      let (d1, r) := dispatch (command batch c) d in
      let (d2, rs) := store_run d1 cs' in (d2, r :: rs)
  end.

(** ** Vocabulary of the history properties *)

(** The operation is a command of kind [p]. *)
Definition is_call (p : call -> Prop) (o : hop) : Prop :=
  exists batch c, o = HCmd (command batch c) /\ p c.

Definition removes_object (id : str) (c : call) : Prop :=
  c = RemoveMetadata id \/ c = RemoveVersions id.

Definition removes_some_object (c : call) : Prop := exists id, removes_object id c.

Definition removes_version (id : str) (n : N) (c : call) : Prop :=
  removes_object id c \/ c = RemoveVersion id n.

Definition migrates (c : call) : Prop := exists id v, c = MigrateVersion id v.

(** A history made of calls, lookups and location changes whose migrated numbers lie
    in 1..[B], with [B] plus its length below 2^63 (so that numbers never leave the
    range of Go's int). *)
Definition hop_ok (B : N) (o : hop) : Prop :=
  match o with
  | HCmd r => exists batch c, r = command batch c /\
                match c with
                | MigrateVersion _ v => (1 <= v_seq v <= B)%N
                | _ => True
                end
  | _ => True
  end.

Definition history (B : N) (ops : list hop) : Prop :=
  Forall (hop_ok B) ops /\ (B + N.of_nat (length ops) < 2 ^ 63)%N.

(** Object [id] has version number [n] stored. *)
Definition has_version (d : db) (id : str) (n : N) : Prop := get_ver id n d <> None.

(** [op] gave object [id] the new number [n]. *)
Definition adds (d : db) (o : hop) (id : str) (n : N) : Prop :=
  get_ver id n d = None /\ get_ver id n (hstep d o) <> None.

(** ** Vocabulary of the log properties *)

(** An entry as the service writes it (every field present), a nil entry, one of
    another type, or one cut short at any place. *)
Definition whole (e : entry) : Prop :=
  match e with
  | EnCmd fs => (exists r, fs = raft_data_fields r) \/ FBad ∈ fs
  | _ => True
  end.

(** What one entry does on its own, read as the call it encodes. *)
Definition lone (d : db) (e : entry) : db * fsm_res :=
  match e with
  | EnNil => (d, bad)
  | EnOther => (d, RErr)
  | EnCmd fs =>
      match fs with
      | [FType t; FDest de; FName nm; FSeq q; FVer v; FMeta m; FBkt b] =>
          dispatch (mk_raft_data t de nm q v m b true) d
      | _ => (d, RErr)
      end
  end.

(** A fold that collects answers. *)
Fixpoint run_with {E R} (f : db -> E -> db * R) (d : db) (es : list E) : db * list R :=
  match es with
  | [] => (d, [])
  | e :: es' => let (d1, r) := f d e in let (d2, rs) := run_with f d1 es' in (d2, r :: rs)
  end.

(** The call finds what it is about. *)
Definition on_target (d : db) (c : call) : Prop :=
  match c with
  | AddMetadata _ _ | CreateBucket _ => True
  | UpdateMetadata id _ | AddVersion id _ => d_meta d !! id <> None
  | UpdateVersion id n _ | RemoveVersion id n => has_version d id n
  | UpdateBucket b => d_bkt d !! b_name b <> None
  | MigrateVersion _ _ | RemoveMetadata _ | RemoveVersions _ | DeleteBucket _ => False
  end.

Fixpoint all_on_target (d : db) (cs : list call) : Prop :=
  match cs with
  | [] => True
  | c :: cs' => on_target d c /\ all_on_target (fst (dispatch (command true c) d)) cs'
  end.

(** Applying a log of calls, as the replicas do. *)
Definition apply_log (d : db) (cs : list call) : db :=
  fold_left (fun d c => fst (dispatch (command true c) d)) cs d.

Definition adds_uid (cs : list call) (u : str) : Prop := exists id v, AddVersion id v ∈ cs /\ v_uid v = u.
Definition adds_hash (cs : list call) (h : str) : Prop := exists id v, AddVersion id v ∈ cs /\ v_hash v = h.

(** Texts that can have entered the unique-id index. *)
Definition uses_id (u : str) (c : call) : Prop :=
  (exists id v, c = AddVersion id v /\ v_uid v = u) \/ (exists id v, c = MigrateVersion id v /\ v_hash v = u).

(** Version [v2] may stand where [v1] stood. *)
Definition succeeds (v1 v2 : version) : Prop :=
  v_hash v2 = v_hash v1 /\ v_uid v2 = v_uid v1 /\ v_seq v2 = v_seq v1 /\ (v2 = v1 \/ (v_ts v1 < v_ts v2)%Z).

(** Likewise for metadata. *)
Definition meta_succeeds (m1 m2 : metadata) : Prop :=
  m_bucket m2 = m_bucket m1 /\ m_ctime m2 = m_ctime m1 /\ (m2 = m1 \/ (m_utime m1 < m_utime m2)%Z).

(** Entries for which the two repositories agree. *)
Definition careful (r : raft_data) : Prop :=
  (forall v, rd_ver r = Some v -> v_hash v <> [] /\ v_uid v <> []) /\
  (rd_type r = LUpdate -> rd_dest r = DMetadata -> rd_meta r <> None).
